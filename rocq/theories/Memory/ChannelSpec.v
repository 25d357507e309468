(** What the buffers of a channel have to be. *)
From stdpp Require Import prelude gmap.
From Verif Require Import Memory.Model Memory.Spec Memory.ChannelModel.

Section Spec.
Context {A : Type}.
Notation blocks := (list (nat * list (cell A))).

(** The blocks [own] are just the buffers of the channel, each of its proper size, and the
    accumulators hold [acc]. *)
Record sized (cd : cdata) (acc : list (list (cell A))) (own : blocks) : Prop := Sized {
  sz_parts : exists ic oc (H S C F R B : blocks), own = (inbuf cd, ic) :: (outbuf cd, oc) :: H ++ S ++ C ++ F ++ R ++ B /\
    length ic = (inSize cd + 1)%nat /\ length oc = (outSize cd + 1)%nat /\
    H.*1 = halves cd /\ Forall (fun q => length (snd q) = (inSize cd / 2 + 1)%nat) H /\
    S.*1 = scratch cd /\ Forall (fun q => length (snd q) = inSize cd) S /\
    C.*1 = accs cd /\ C.*2 = acc /\ Forall (fun q => length (snd q) = inSize cd) C /\
    F.*1 = omap snd (ffts cd) /\ (forall n b, (n, Some b) ∈ ffts cd -> exists l, (b, l) ∈ F /\ length l = n) /\
    R.*1 = option_list (resampler cd) /\ B.*1 = option_list (rbuf cd) /\ Forall (fun q => length (snd q) = rbufSize cd) B;
  sz_counts : length (halves cd) = 6%nat /\ length (scratch cd) = 4%nat /\ length (accs cd) = 2%nat /\ (1 <= inSize cd)%nat /\ (rbuf cd = None -> rbufSize cd = 0%nat);
  sz_ffts : Forall (fun e => is_Some (snd e)) (ffts cd)
}.
(** Buffers large enough for windows and transforms of these sizes, and the transform is there. *)
Definition ample (cd : cdata) (window size : nat) : Prop :=
  (window <= inSize cd)%nat /\ (size <= inSize cd)%nat /\ exists b, fft cd = Some b /\ (size, Some b) ∈ ffts cd.
(** The sizes asked for last. *)
Fixpoint asked (window size : nat) (os : list op) : nat * nat :=
  match os with [] => (window, size) | Sizes w f :: os => asked w f os | _ :: os => asked window size os end.
End Spec.

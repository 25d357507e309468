*.vo
*.vok
*.vos
*.glob
*.aux
.*.cache
Makefile*
.Makefile.d

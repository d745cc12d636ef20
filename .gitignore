*.vo
*.vos
*.vok
*.glob
.*.aux
*.cache
Makefile*
.Makefile.d

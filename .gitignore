*.vo
*.vok
*.vos
*.glob
*.aux
.*.aux
.*.cache
.Makefile.d
.CoqMakefile.d
Makefile
Makefile.conf
CoqMakefile*

*.vo
*.vos
*.vok
*.glob
*.aux
.*.aux
*.cache
.Makefile.d
Makefile
Makefile.conf

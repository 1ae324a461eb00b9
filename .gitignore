*.aux
*.cache
*.glob
*.vo
*.vok
*.vos
.*.aux
rocq/.Makefile.d
rocq/Makefile
rocq/Makefile.conf

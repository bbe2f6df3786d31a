*.vo
*.vos
*.vok
*.glob
*.aux
.*.aux
*.cache
.coqdeps.d
.Makefile.d
rocq/Makefile
rocq/Makefile.conf
rocq/.Makefile.d

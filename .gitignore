*.vo
*.vok
*.vos
*.glob
*.aux
.*.aux
.nra.cache
.lia.cache
rocq/Makefile
rocq/Makefile.conf
rocq/.Makefile.d

*.vo
*.vos
*.vok
*.glob
*.aux
.*.aux
rocq/Makefile
rocq/Makefile.conf
rocq/.Makefile.d
.lia.cache
.nia.cache
.coqdeps.d

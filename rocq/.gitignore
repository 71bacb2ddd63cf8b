*.vo
*.vok
*.vos
*.glob
*.aux
.*.aux
Makefile
Makefile.conf
.Makefile.d
.*.cache
.lia.cache
.nia.cache
.coqdeps.d

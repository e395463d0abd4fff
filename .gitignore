*.vo
*.vos
*.vok
*.glob
*.aux
.*.aux
*.d
.Makefile.d
.coqdeps.d
rocq/Makefile
rocq/Makefile.conf
rocq/.lia.cache
rocq/.nia.cache
.lia.cache
.nia.cache

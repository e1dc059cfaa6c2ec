*.vo
*.vok
*.vos
*.glob
*.aux
.*.aux
.coqdeps.d
.Makefile.coq.d
rocq/Makefile
rocq/Makefile.conf
rocq/.Makefile.d
.lia.cache
.nia.cache
__pycache__/

*.vo
*.vos
*.vok
*.glob
*.aux
.*.aux
.lia.cache
.nia.cache
.Makefile.coq.d
.Makefile.d
Makefile
Makefile.conf
Makefile.coq
Makefile.coq.conf

Makefile
Makefile.conf
.Makefile.d
*.vo
*.vok
*.vos
*.glob
*.aux
.lia.cache

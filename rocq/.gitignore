*.aux
*.d
*.glob
*.vo
*.vok
*.vos
.Makefile.d
.nia.cache
Makefile
Makefile.conf

*.d
*.glob
*.vo
*.vok
*.vos
.*.aux
.Makefile.d
.lia.cache
.nia.cache
Makefile
Makefile.conf
__pycache__

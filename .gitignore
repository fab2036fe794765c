*.vo
*.vok
*.vos
*.glob
*.aux
.lia.cache
*.conf
Makefile
.Makefile.d
.nia.cache
__pycache__/

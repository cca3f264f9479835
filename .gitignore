*.vo
*.vok
*.vos
*.glob
*.aux
.*.aux
*.d
.lia.cache
.nia.cache
rocq/Makefile
rocq/Makefile.conf
__pycache__
rocq/**/.nra.cache
rocq/.nra.cache

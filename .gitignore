*.vo
*.vos
*.vok
*.glob
.*.aux
.*.cache
*.cache
/rocq/Makefile*
/rocq/.Makefile.d

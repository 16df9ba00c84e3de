.*.cache
**/.*.cache
*.vo
*.vok
*.vos
*.glob
__pycache__/

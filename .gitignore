.lia.cache
.nia.cache
*.cache
.nra.cache

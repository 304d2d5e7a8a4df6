.lia.cache
.nra.cache

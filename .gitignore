*.nra.cache

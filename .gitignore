.lia.cache
__pycache__/
.nia.cache

.lia.cache
.nia.cache
__pycache__/
__pycache__

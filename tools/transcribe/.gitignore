models.json
__pycache__/

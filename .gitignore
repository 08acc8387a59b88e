gen/__pycache__/

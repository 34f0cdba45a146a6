{"C03": "proved"}

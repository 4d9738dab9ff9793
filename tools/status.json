{"C60": ["proved", "For every pair of names X.680 allows. C60_underscore_refuted: names with underscores, which the lexer accepts beyond X.680, can collide."]}

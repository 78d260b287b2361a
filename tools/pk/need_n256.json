{"115792089210356248762697446949407573529996955224135760342422259061068512044369": ["2624747550333869278416773953", "38189", "17449", "373"], "2624747550333869278416773953": ["208150935158385979"], "208150935158385979": ["3023", "127", "43", "11", "3"], "38189": ["9547"], "17449": ["727"]}
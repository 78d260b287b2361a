{"115792089210356248756420345214020892766061623724957744567843809356293439045923": ["125197554539772723432468576818475380947471091418362477724521"], "125197554539772723432468576818475380947471091418362477724521": ["18120927127286907576013935251791662753637"], "18120927127286907576013935251791662753637": ["101456283590983", "17965699"], "101456283590983": ["5636460199499"], "5636460199499": ["9061163"], "9061163": ["5801"], "17965699": ["233", "71"]}
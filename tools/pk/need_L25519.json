{"7237005577332262213973186563042994240857116359379907606001950938285454250989": ["276602624281642239937218680557139826668747"], "276602624281642239937218680557139826668747": ["19757330305831588566944191468367130476339"], "19757330305831588566944191468367130476339": ["172054593956031949258510691"], "172054593956031949258510691": ["4434155615661930479"], "4434155615661930479": ["1257559732178653"], "1257559732178653": ["531581", "23", "3"], "531581": ["3797"]}
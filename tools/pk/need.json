{"57896044618658097711785492504343953926634992332820282019728792003956564819949": ["74058212732561358302231226437062788676166966415465897661863160754340907"], "74058212732561358302231226437062788676166966415465897661863160754340907": ["75445702479781427272750846543864801", "3", "2"], "75445702479781427272750846543864801": ["1919519569386763", "75707"], "1919519569386763": ["8574133", "7"], "8574133": ["991", "3"], "75707": ["37853"], "37853": ["9463"], "726838724295606890549323807888004534353641360687318060281490199180612328166730772686396383698676545930088884461843637361053498018365439": ["37414057161322375957408148834323969", "1469495262398780123809", "2916841", "196687"], "37414057161322375957408148834323969": ["1255525949", "36753053", "7"], "1255525949": ["116989"], "116989": ["9749"], "36753053": ["443", "7", "2"], "1469495262398780123809": ["3402277943", "7", "3"], "3402277943": ["1609403"], "1609403": ["59", "23"], "2916841": ["223", "5", "3"], "196687": ["223", "3"], "115792089210356248762697446949407573530086143415290314195533631308867097853951": ["835945042244614951780389953367877943453916927241"], "835945042244614951780389953367877943453916927241": ["774023187263532362759620327192479577272145303"], "774023187263532362759620327192479577272145303": ["11290956913871", "34282281433"], "11290956913871": ["66417393611"], "66417393611": ["3677", "197"], "34282281433": ["204061199"], "204061199": ["3769", "11"], "115792089210356248756420345214020892766250353991924191454421193933289684991999": ["417514796639753", "4641351449027", "348253387243"], "417514796639753": ["8214737", "7"], "8214737": ["97", "79"], "4641351449027": ["3017783777"], "3017783777": ["5711", "7", "2"], "348253387243": ["5303", "61", "3"], "39402006196394479212279040100143613805079739270465446667948293404245721771496870329047266088258938001861606973112319": ["19173790298027098165721053155794528970226934547887232785722672956982046098136719667167519737147526097"], "19173790298027098165721053155794528970226934547887232785722672956982046098136719667167519737147526097": ["529709925838459440593", "1357291859799823621", "312289", "38557", "8389"], "529709925838459440593": ["246608641", "181"], "246608641": ["21407"], "21407": ["11", "7", "2"], "1357291859799823621": ["53448597593"], "53448597593": ["513928823"], "513928823": ["661", "59"], "312289": ["3253"], "38557": ["17", "7", "3"]}
{
"names": {
"k1p": "115792089237316195423570985008687907853269984665640564039457584007908834671663",
"k1n": "115792089237316195423570985008687907852837564279074904382605163141518161494337",
"r1p": "115792089210356248762697446949407573530086143415290314195533631308867097853951",
"r1n": "115792089210356248762697446949407573529996955224135760342422259061068512044369",
"sm2p": "115792089210356248756420345214020892766250353991924191454421193933289684991999",
"sm2n": "115792089210356248756420345214020892766061623724957744567843809356293439045923",
"p25519": "57896044618658097711785492504343953926634992332820282019728792003956564819949",
"l25519": "7237005577332262213973186563042994240857116359379907606001950938285454250989",
"pallasp": "28948022309329048855892746252171976963363056481941560715954676764349967630337",
"pallasq": "28948022309329048855892746252171976963363056481941647379679742748393362948097"
},
"cert": {
"53": null,
"29": null,
"7": null,
"107590001": [
[
53,
1,
2
],
[
29,
1,
2
],
[
7,
1,
2
]
],
"1206781": null,
"7240687": [
[
1206781,
1,
2
]
],
"1627": null,
"11": null,
"255515944373312847190720520512484175977": [
[
107590001,
1,
2
],
[
7240687,
1,
2
],
[
1627,
1,
2
],
[
11,
1,
2
],
[
7,
2,
2
]
],
"205115282021455665897114700593932402728804164701536103180137503955397371": [
[
255515944373312847190720520512484175977,
1,
2
]
],
"115792089237316195423570985008687907853269984665640564039457584007908834671663": [
[
205115282021455665897114700593932402728804164701536103180137503955397371,
1,
2
]
],
"1627771": null,
"297159362677": [
[
1627771,
1,
2
]
],
"293": null,
"2": null,
"29047611873442575647497758179": [
[
297159362677,
1,
2
],
[
293,
1,
2
],
[
2,
1,
2
]
],
"341948486974166000522343609283189": [
[
29047611873442575647497758179,
1,
2
]
],
"631": null,
"149": null,
"3": null,
"115792089237316195423570985008687907852837564279074904382605163141518161494337": [
[
341948486974166000522343609283189,
1,
2
],
[
631,
1,
2
],
[
149,
1,
2
],
[
3,
1,
2
],
[
2,
6,
5
]
],
"704251": null,
"78283": null,
"46076956964474543": [
[
704251,
1,
2
],
[
78283,
1,
2
]
],
"197": null,
"173": null,
"66417393611": [
[
197,
1,
2
],
[
173,
1,
2
],
[
53,
1,
2
]
],
"11290956913871": [
[
66417393611,
1,
2
]
],
"774023187263532362759620327192479577272145303": [
[
46076956964474543,
1,
2
],
[
11290956913871,
1,
2
]
],
"835945042244614951780389953367877943453916927241": [
[
774023187263532362759620327192479577272145303,
1,
2
]
],
"115792089210356248762697446949407573530086143415290314195533631308867097853951": [
[
835945042244614951780389953367877943453916927241,
1,
2
]
],
"155317": null,
"191039911": [
[
155317,
1,
2
]
],
"127": null,
"208150935158385979": [
[
191039911,
1,
2
],
[
127,
1,
2
]
],
"2624747550333869278416773953": [
[
208150935158385979,
1,
2
]
],
"3969899": null,
"1002328039319": [
[
3969899,
1,
2
]
],
"115792089210356248762697446949407573529996955224135760342422259061068512044369": [
[
2624747550333869278416773953,
1,
2
],
[
1002328039319,
1,
2
]
],
"363761": null,
"823": null,
"4773264379806847": [
[
363761,
1,
2
],
[
823,
1,
2
]
],
"1213": null,
"66013261729388519804782124120027": [
[
4773264379806847,
1,
2
],
[
1213,
1,
2
]
],
"97": null,
"79": null,
"8214737": [
[
97,
1,
2
],
[
79,
1,
2
]
],
"367": null,
"417514796639753": [
[
8214737,
1,
2
],
[
367,
1,
2
]
],
"115792089210356248756420345214020892766250353991924191454421193933289684991999": [
[
66013261729388519804782124120027,
1,
2
],
[
417514796639753,
1,
2
]
],
"5801": null,
"9061163": [
[
5801,
1,
2
]
],
"5636460199499": [
[
9061163,
1,
2
]
],
"101456283590983": [
[
5636460199499,
1,
2
]
],
"84163": null,
"2566129871": [
[
84163,
1,
2
]
],
"18120927127286907576013935251791662753637": [
[
101456283590983,
1,
2
],
[
2566129871,
1,
2
]
],
"125197554539772723432468576818475380947471091418362477724521": [
[
18120927127286907576013935251791662753637,
1,
2
]
],
"115792089210356248756420345214020892766061623724957744567843809356293439045923": [
[
125197554539772723432468576818475380947471091418362477724521,
1,
2
]
],
"47": null,
"19": null,
"1919519569386763": [
[
127,
1,
2
],
[
47,
2,
2
],
[
19,
1,
2
],
[
7,
1,
2
],
[
3,
1,
2
]
],
"5": null,
"75445702479781427272750846543864801": [
[
1919519569386763,
1,
2
],
[
5,
2,
2
],
[
3,
2,
2
]
],
"353": null,
"74058212732561358302231226437062788676166966415465897661863160754340907": [
[
75445702479781427272750846543864801,
1,
2
],
[
353,
1,
2
]
],
"57896044618658097711785492504343953926634992332820282019728792003956564819949": [
[
74058212732561358302231226437062788676166966415465897661863160754340907,
1,
2
]
],
"1224481": null,
"23": null,
"1257559732178653": [
[
1224481,
1,
2
],
[
23,
1,
2
],
[
7,
1,
2
]
],
"4434155615661930479": [
[
1257559732178653,
1,
2
]
],
"172054593956031949258510691": [
[
4434155615661930479,
1,
2
]
],
"19757330305831588566944191468367130476339": [
[
172054593956031949258510691,
1,
2
]
],
"276602624281642239937218680557139826668747": [
[
19757330305831588566944191468367130476339,
1,
2
]
],
"7237005577332262213973186563042994240857116359379907606001950938285454250989": [
[
276602624281642239937218680557139826668747,
1,
2
]
],
"413527": null,
"509": null,
"325086459374267": [
[
413527,
1,
2
],
[
509,
1,
2
]
],
"977": null,
"6942563": [
[
977,
1,
2
],
[
19,
1,
2
]
],
"41655379": [
[
6942563,
1,
2
]
],
"22160661629": [
[
41655379,
1,
2
]
],
"8999194758858563409123804352480028797519453": [
[
325086459374267,
1,
2
],
[
22160661629,
1,
2
]
],
"28948022309329048855892746252171976963363056481941560715954676764349967630337": [
[
8999194758858563409123804352480028797519453,
1,
2
]
],
"12149": null,
"757": null,
"5239247429827": [
[
12149,
1,
2
],
[
757,
1,
2
]
],
"6091": null,
"5701177": [
[
6091,
1,
2
]
],
"399082391": [
[
5701177,
1,
2
]
],
"10427374428728808478656897599072717": [
[
5239247429827,
1,
2
],
[
399082391,
1,
2
]
],
"1709": null,
"28948022309329048855892746252171976963363056481941647379679742748393362948097": [
[
10427374428728808478656897599072717,
1,
2
],
[
1709,
1,
2
],
[
3,
2,
2
],
[
2,
32,
5
]
]
}
}
(** * Data for HueGrid.v, generated; checked in PfHueCheck.v. *)
From Coq Require Import ZArith List.
Import ListNotations.
Open Scope Z_scope.

(** The linear channel values times 2^52, rounded down. *)
Definition lin_tab : list Z :=
  [0; 1366964010007; 2733928020014; 4100892030022; 5467856040029; 6834820050037; 8201784060044; 9568748070052; 10935712080059; 12302676090066;
   13669640100074; 15071457219278; 16557517014604; 18125714064771; 19777296723300; 21513485915618; 23335476689865; 25244439630025; 27241522147765;
   29327849666931; 31504526712672; 33772637915512; 36133248939301; 38587407340800; 41136143367701; 43780470701010; 46521387147031; 49359875283566;
   52296903064429; 55333424385898; 58470379618349; 61708696105973; 65049288637160; 68493059887888; 72040900840218; 75693691177779; 79452299659973;
   83317584476442; 87290393583216; 91371565021822; 95561927222540; 99862299292855; 104273491292110; 108796304493239; 113431531632418; 118179957147392;
   123042357405167; 128019500919728; 133112148560367; 138321053751174; 143646962662211; 149090614392825; 154652741147555; 160334068405041;
   166135315080296; 172057193680726; 178100410456199; 184265665543494; 190553653105398; 196965061464743; 203500573233615; 210160865437985;
   216946609637976; 223858472043982; 230897113628828; 238063190236157; 245357352685224; 252780246872247; 260332513868481; 268014790015158;
   275827707015426; 283771892023414; 291847967730561; 300056552449305; 308398260194254; 316873700760941; 325483479802261; 334228198902676;
   343108455650296; 352124843706896; 361277952875967; 370568369168869; 379996674869162; 389563448595181; 399269265360919; 409114696635293;
   419100310399826; 429226671204838; 439494340224166; 449903875308488; 460455831037286; 471150758769508; 481989206692960; 492971719872485;
   504098840296962; 515371106925162; 526789055730507; 538353219744768; 550064129100724; 561922311073836; 573928290122942; 586082587930033;
   598385723439117; 610838212894203; 623440569876445; 636193305340457; 649096927649828; 662151942611871; 675358853511614; 688718161145065;
   702230363851770; 715895957546683; 729715435751374; 743689289624582; 757818007992147; 772102077376327; 786541982024517; 801138203937399;
   815891222896527; 830801516491359; 845869560145771; 861095827144039; 876480788656334; 892024913763713; 907728669482639; 923592520789043;
   939616930641919; 955802360006496; 972149267876965; 988658111298797; 1005329345390655; 1022163423365898; 1039160796553708; 1056321914419835;
   1073647224586973; 1091137172854777; 1108792203219529; 1126612757893460; 1144599277323742; 1162752200211150; 1181071963528406; 1199559002538213;
   1218213750810985; 1237036640242277; 1256028101069931; 1275188561890937; 1294518449678008; 1314018189795902; 1333688206017461; 1353528920539405;
   1373540753997867; 1393724125483679; 1414079452557422; 1434607151264235; 1455307636148391; 1476181320267652; 1497228615207401; 1518449931094549;
   1539845676611242; 1561416259008350; 1583162084118759; 1605083556370461; 1627181078799447; 1649455053062409; 1671905879449264; 1694533956895477;
   1717339682994219; 1740323454008345; 1763485664882194; 1786826709253227; 1810346979463495; 1834046866570942; 1857926760360558; 1881987049355364;
   1906228120827249; 1930650360807662; 1955254154098144; 1980039884280726; 2005007933728182; 2030158683614140; 2055492513923056; 2081009803460063;
   2106710929860674; 2132596269600368; 2158666198004040; 2184921089255336; 2211361316405856; 2237987251384240; 2264799265005143; 2291797726978084;
   2318983005916186; 2346355469344806; 2373915483710051; 2401663414387188; 2429599625688950; 2457724480873736; 2486038342153707; 2514541570702785;
   2543234526664549; 2572117569160039; 2601191056295460; 2630455345169794; 2659910791882319; 2689557751540037; 2719396578265016; 2749427625201637;
   2779651244523764; 2810067787441820; 2840677604209787; 2871481044132117; 2902478455570569; 2933670185950959; 2965056581769841; 2996637988601100;
   3028414751102480; 3060387213022027; 3092555717204469; 3124920605597514; 3157482219258087; 3190240898358484; 3223196982192471; 3256350809181305;
   3289702716879692; 3323253041981680; 3357002120326486; 3390950286904259; 3425097875861777; 3459445220508091; 3493992653320099; 3528740505948064;
   3563689109221073; 3598838793152434; 3634189886945021; 3669742718996559; 3705497616904854; 3741454907472967; 3777614916714336; 3813977969857842;
   3850544391352826; 3887314504874049; 3924288633326604; 3961467098850781; 3998850222826872; 4036438325879942; 4074231727884534; 4112230747969343;
   4150435704521833; 4188846915192809; 4227464696900946; 4266289365837272; 4305321237469607; 4344560626546954; 4384007847103854; 4423663212464690;
   4463527035247960; 4503599627370496].

(** For green 0 and blue 1, 2, ..., the first red on the positive side. *)
Definition first_row : list Z :=
  [4; 8; 12; 15; 18; 21; 23; 25; 27; 29; 31; 32; 34; 36; 38; 39; 41; 43; 45; 47; 48; 50; 52; 54; 55; 57; 59; 61; 62; 64; 66; 68; 69; 71; 73; 75; 77; 78;
   80; 82; 84; 85; 87; 89; 91; 92; 94; 96; 98; 99; 101; 103; 105; 107; 108; 110; 112; 114; 115; 117; 119; 121; 122; 124; 126; 128; 129; 131; 133; 135;
   137; 138; 140; 142; 144; 145; 147; 149; 151; 152; 154; 156; 158; 160; 161; 163; 165; 167; 168; 170; 172; 174; 175; 177; 179; 181; 182; 184; 186; 188;
   190; 191; 193; 195; 197; 198; 200; 202; 204; 205; 207; 209; 211; 212; 214; 216; 218; 220; 221; 223; 225; 227; 228; 230; 232; 234; 235; 237; 239; 241;
   242; 244; 246; 248; 250; 251; 253; 255].

(** For green 1, 2, ..., 255: the first blue for which red 0 is on the negative side, and from there on the first red on the positive side. *)
Definition other_rows : list (Z * list Z) :=
  [(1, [2; 5; 9; 13; 16; 19; 21; 24; 26; 28; 29; 31; 33; 35; 37; 38; 40; 42; 44; 46; 47; 49; 51; 53; 55; 56; 58; 60; 62; 64; 65; 67; 69; 71; 73; 74; 76; 78;
   80; 81; 83; 85; 87; 88; 90; 92; 94; 96; 97; 99; 101; 103; 104; 106; 108; 110; 112; 113; 115; 117; 119; 120; 122; 124; 126; 127; 129; 131; 133; 135;
   136; 138; 140; 142; 143; 145; 147; 149; 150; 152; 154; 156; 158; 159; 161; 163; 165; 166; 168; 170; 172; 173; 175; 177; 179; 181; 182; 184; 186; 188;
   189; 191; 193; 195; 196; 198; 200; 202; 204; 205; 207; 209; 211; 212; 214; 216; 218; 219; 221; 223; 225; 226; 228; 230; 232; 234; 235; 237; 239; 241;
   242; 244; 246; 248; 249; 251; 253; 255]);
   (2, [3; 6; 10; 14; 17; 20; 22; 24; 26; 28; 30; 32; 34; 36; 37; 39; 41; 43; 45; 47; 49; 50; 52; 54; 56; 58; 59; 61; 63; 65; 67; 68; 70; 72; 74; 76; 77; 79;
   81; 83; 85; 86; 88; 90; 92; 93; 95; 97; 99; 101; 102; 104; 106; 108; 109; 111; 113; 115; 117; 118; 120; 122; 124; 125; 127; 129; 131; 133; 134; 136;
   138; 140; 141; 143; 145; 147; 149; 150; 152; 154; 156; 157; 159; 161; 163; 164; 166; 168; 170; 172; 173; 175; 177; 179; 180; 182; 184; 186; 187; 189;
   191; 193; 195; 196; 198; 200; 202; 203; 205; 207; 209; 210; 212; 214; 216; 218; 219; 221; 223; 225; 226; 228; 230; 232; 233; 235; 237; 239; 241; 242;
   244; 246; 248; 249; 251; 253; 255]);
   (3, [4; 8; 11; 15; 18; 20; 22; 25; 27; 29; 31; 33; 34; 36; 38; 40; 42; 44; 46; 48; 50; 51; 53; 55; 57; 59; 61; 62; 64; 66; 68; 70; 71; 73; 75; 77; 79; 81;
   82; 84; 86; 88; 89; 91; 93; 95; 97; 98; 100; 102; 104; 106; 107; 109; 111; 113; 115; 116; 118; 120; 122; 123; 125; 127; 129; 131; 132; 134; 136; 138;
   139; 141; 143; 145; 147; 148; 150; 152; 154; 155; 157; 159; 161; 162; 164; 166; 168; 170; 171; 173; 175; 177; 178; 180; 182; 184; 186; 187; 189; 191;
   193; 194; 196; 198; 200; 201; 203; 205; 207; 209; 210; 212; 214; 216; 217; 219; 221; 223; 224; 226; 228; 230; 232; 233; 235; 237; 239; 240; 242; 244;
   246; 247; 249; 251; 253; 255]);
   (3, [1; 5; 9; 12; 16; 18; 21; 23; 25; 27; 29; 31; 33; 35; 37; 39; 41; 43; 45; 47; 49; 51; 53; 54; 56; 58; 60; 62; 64; 65; 67; 69; 71; 73; 75; 76; 78; 80;
   82; 84; 85; 87; 89; 91; 93; 95; 96; 98; 100; 102; 103; 105; 107; 109; 111; 112; 114; 116; 118; 120; 121; 123; 125; 127; 129; 130; 132; 134; 136; 137;
   139; 141; 143; 145; 146; 148; 150; 152; 153; 155; 157; 159; 161; 162; 164; 166; 168; 169; 171; 173; 175; 177; 178; 180; 182; 184; 185; 187; 189; 191;
   192; 194; 196; 198; 200; 201; 203; 205; 207; 208; 210; 212; 214; 215; 217; 219; 221; 223; 224; 226; 228; 230; 231; 233; 235; 237; 239; 240; 242; 244;
   246; 247; 249; 251; 253; 254]);
   (4, [2; 6; 10; 13; 16; 19; 21; 24; 26; 28; 30; 32; 34; 36; 38; 40; 42; 44; 46; 48; 50; 52; 54; 56; 57; 59; 61; 63; 65; 67; 69; 70; 72; 74; 76; 78; 80; 81;
   83; 85; 87; 89; 91; 92; 94; 96; 98; 100; 101; 103; 105; 107; 109; 110; 112; 114; 116; 118; 119; 121; 123; 125; 126; 128; 130; 132; 134; 135; 137;
   139; 141; 143; 144; 146; 148; 150; 151; 153; 155; 157; 159; 160; 162; 164; 166; 167; 169; 171; 173; 175; 176; 178; 180; 182; 183; 185; 187; 189; 191;
   192; 194; 196; 198; 199; 201; 203; 205; 207; 208; 210; 212; 214; 215; 217; 219; 221; 222; 224; 226; 228; 230; 231; 233; 235; 237; 238; 240; 242; 244;
   245; 247; 249; 251; 253; 254]);
   (5, [3; 7; 11; 14; 17; 20; 22; 24; 27; 29; 31; 33; 35; 37; 39; 41; 43; 45; 47; 49; 51; 53; 55; 57; 59; 61; 62; 64; 66; 68; 70; 72; 74; 76; 77; 79; 81; 83;
   85; 86; 88; 90; 92; 94; 96; 97; 99; 101; 103; 105; 106; 108; 110; 112; 114; 115; 117; 119; 121; 123; 124; 126; 128; 130; 132; 133; 135; 137; 139;
   141; 142; 144; 146; 148; 149; 151; 153; 155; 157; 158; 160; 162; 164; 165; 167; 169; 171; 173; 174; 176; 178; 180; 182; 183; 185; 187; 189; 190; 192;
   194; 196; 197; 199; 201; 203; 205; 206; 208; 210; 212; 213; 215; 217; 219; 221; 222; 224; 226; 228; 229; 231; 233; 235; 237; 238; 240; 242; 244; 245;
   247; 249; 251; 252; 254]);
   (5, [1; 4; 8; 12; 15; 18; 20; 23; 25; 28; 30; 32; 34; 36; 38; 40; 42; 44; 46; 48; 50; 52; 54; 56; 58; 60; 62; 64; 66; 68; 69; 71; 73; 75; 77; 79; 81; 82;
   84; 86; 88; 90; 92; 93; 95; 97; 99; 101; 103; 104; 106; 108; 110; 112; 113; 115; 117; 119; 121; 122; 124; 126; 128; 130; 131; 133; 135; 137; 139;
   140; 142; 144; 146; 147; 149; 151; 153; 155; 156; 158; 160; 162; 164; 165; 167; 169; 171; 172; 174; 176; 178; 180; 181; 183; 185; 187; 188; 190; 192;
   194; 196; 197; 199; 201; 203; 204; 206; 208; 210; 212; 213; 215; 217; 219; 220; 222; 224; 226; 228; 229; 231; 233; 235; 236; 238; 240; 242; 244; 245;
   247; 249; 251; 252; 254]);
   (6, [2; 5; 9; 13; 16; 19; 21; 24; 26; 28; 31; 33; 35; 37; 39; 42; 44; 46; 48; 50; 52; 54; 56; 57; 59; 61; 63; 65; 67; 69; 71; 73; 75; 76; 78; 80; 82; 84;
   86; 88; 89; 91; 93; 95; 97; 99; 100; 102; 104; 106; 108; 109; 111; 113; 115; 117; 118; 120; 122; 124; 126; 128; 129; 131; 133; 135; 136; 138; 140;
   142; 144; 145; 147; 149; 151; 153; 154; 156; 158; 160; 162; 163; 165; 167; 169; 170; 172; 174; 176; 178; 179; 181; 183; 185; 187; 188; 190; 192; 194;
   195; 197; 199; 201; 203; 204; 206; 208; 210; 211; 213; 215; 217; 219; 220; 222; 224; 226; 227; 229; 231; 233; 235; 236; 238; 240; 242; 243; 245; 247;
   249; 250; 252; 254]);
   (7, [3; 6; 10; 14; 17; 20; 22; 25; 27; 30; 32; 34; 36; 38; 41; 43; 45; 47; 49; 51; 53; 55; 57; 59; 61; 63; 65; 66; 68; 70; 72; 74; 76; 78; 80; 82; 83; 85;
   87; 89; 91; 93; 95; 96; 98; 100; 102; 104; 105; 107; 109; 111; 113; 115; 116; 118; 120; 122; 124; 125; 127; 129; 131; 133; 134; 136; 138; 140; 142;
   143; 145; 147; 149; 151; 152; 154; 156; 158; 160; 161; 163; 165; 167; 169; 170; 172; 174; 176; 177; 179; 181; 183; 185; 186; 188; 190; 192; 194; 195;
   197; 199; 201; 202; 204; 206; 208; 210; 211; 213; 215; 217; 218; 220; 222; 224; 226; 227; 229; 231; 233; 234; 236; 238; 240; 242; 243; 245; 247; 249;
   250; 252; 254]);
   (8, [4; 7; 11; 15; 18; 21; 23; 26; 28; 31; 33; 35; 37; 40; 42; 44; 46; 48; 50; 52; 54; 56; 58; 60; 62; 64; 66; 68; 70; 72; 74; 75; 77; 79; 81; 83; 85; 87;
   89; 90; 92; 94; 96; 98; 100; 102; 103; 105; 107; 109; 111; 112; 114; 116; 118; 120; 122; 123; 125; 127; 129; 131; 132; 134; 136; 138; 140; 141; 143;
   145; 147; 149; 150; 152; 154; 156; 158; 159; 161; 163; 165; 167; 168; 170; 172; 174; 176; 177; 179; 181; 183; 184; 186; 188; 190; 192; 193; 195; 197;
   199; 200; 202; 204; 206; 208; 209; 211; 213; 215; 217; 218; 220; 222; 224; 225; 227; 229; 231; 233; 234; 236; 238; 240; 241; 243; 245; 247; 249; 250;
   252; 254]);
   (8, [1; 5; 8; 12; 16; 19; 22; 24; 27; 29; 32; 34; 36; 39; 41; 43; 45; 47; 49; 51; 53; 55; 57; 59; 61; 63; 65; 67; 69; 71; 73; 75; 77; 79; 81; 83; 84; 86;
   88; 90; 92; 94; 96; 97; 99; 101; 103; 105; 107; 109; 110; 112; 114; 116; 118; 119; 121; 123; 125; 127; 129; 130; 132; 134; 136; 138; 139; 141; 143;
   145; 147; 148; 150; 152; 154; 156; 157; 159; 161; 163; 165; 166; 168; 170; 172; 174; 175; 177; 179; 181; 182; 184; 186; 188; 190; 191; 193; 195; 197;
   199; 200; 202; 204; 206; 207; 209; 211; 213; 215; 216; 218; 220; 222; 223; 225; 227; 229; 231; 232; 234; 236; 238; 240; 241; 243; 245; 247; 248; 250;
   252; 254]);
   (9, [2; 6; 9; 13; 17; 20; 23; 25; 28; 31; 33; 35; 38; 40; 42; 44; 46; 49; 51; 53; 55; 57; 59; 61; 63; 65; 67; 69; 71; 73; 74; 76; 78; 80; 82; 84; 86; 88;
   90; 92; 93; 95; 97; 99; 101; 103; 105; 106; 108; 110; 112; 114; 116; 117; 119; 121; 123; 125; 126; 128; 130; 132; 134; 136; 137; 139; 141; 143; 145;
   146; 148; 150; 152; 154; 155; 157; 159; 161; 163; 164; 166; 168; 170; 172; 173; 175; 177; 179; 181; 182; 184; 186; 188; 189; 191; 193; 195; 197; 198;
   200; 202; 204; 206; 207; 209; 211; 213; 214; 216; 218; 220; 222; 223; 225; 227; 229; 230; 232; 234; 236; 238; 239; 241; 243; 245; 247; 248; 250; 252;
   254; 255]);
   (10, [2; 6; 10; 14; 18; 21; 24; 26; 29; 32; 34; 36; 39; 41; 43; 45; 48; 50; 52; 54; 56; 58; 60; 62; 64; 66; 68; 70; 72; 74; 76; 78; 80; 82; 84; 85; 87; 89;
   91; 93; 95; 97; 99; 100; 102; 104; 106; 108; 110; 112; 113; 115; 117; 119; 121; 123; 124; 126; 128; 130; 132; 133; 135; 137; 139; 141; 143; 144; 146;
   148; 150; 152; 153; 155; 157; 159; 161; 162; 164; 166; 168; 170; 171; 173; 175; 177; 179; 180; 182; 184; 186; 188; 189; 191; 193; 195; 196; 198; 200;
   202; 204; 205; 207; 209; 211; 213; 214; 216; 218; 220; 221; 223; 225; 227; 229; 230; 232; 234; 236; 237; 239; 241; 243; 245; 246; 248; 250; 252; 253;
   255]);
   (11, [3; 7; 11; 15; 19; 22; 25; 28; 30; 33; 35; 38; 40; 42; 44; 47; 49; 51; 53; 55; 57; 59; 61; 63; 65; 67; 69; 71; 73; 75; 77; 79; 81; 83; 85; 87; 89; 91;
   93; 94; 96; 98; 100; 102; 104; 106; 107; 109; 111; 113; 115; 117; 119; 120; 122; 124; 126; 128; 130; 131; 133; 135; 137; 139; 140; 142; 144; 146;
   148; 150; 151; 153; 155; 157; 159; 160; 162; 164; 166; 168; 169; 171; 173; 175; 177; 178; 180; 182; 184; 186; 187; 189; 191; 193; 194; 196; 198; 200;
   202; 203; 205; 207; 209; 211; 212; 214; 216; 218; 220; 221; 223; 225; 227; 228; 230; 232; 234; 236; 237; 239; 241; 243; 244; 246; 248; 250; 252; 253;
   255]);
   (12, [4; 8; 12; 16; 20; 23; 26; 29; 31; 34; 36; 39; 41; 43; 46; 48; 50; 52; 54; 56; 59; 61; 63; 65; 67; 69; 71; 73; 75; 77; 79; 81; 82; 84; 86; 88; 90; 92;
   94; 96; 98; 100; 101; 103; 105; 107; 109; 111; 113; 114; 116; 118; 120; 122; 124; 126; 127; 129; 131; 133; 135; 137; 138; 140; 142; 144; 146; 147;
   149; 151; 153; 155; 157; 158; 160; 162; 164; 166; 167; 169; 171; 173; 175; 176; 178; 180; 182; 184; 185; 187; 189; 191; 193; 194; 196; 198; 200; 201;
   203; 205; 207; 209; 210; 212; 214; 216; 218; 219; 221; 223; 225; 226; 228; 230; 232; 234; 235; 237; 239; 241; 243; 244; 246; 248; 250; 251; 253; 255]);
   (13, [4; 9; 13; 17; 21; 24; 27; 30; 32; 35; 37; 40; 42; 45; 47; 49; 51; 53; 56; 58; 60; 62; 64; 66; 68; 70; 72; 74; 76; 78; 80; 82; 84; 86; 88; 90; 92; 93;
   95; 97; 99; 101; 103; 105; 107; 109; 110; 112; 114; 116; 118; 120; 122; 123; 125; 127; 129; 131; 133; 134; 136; 138; 140; 142; 144; 145; 147; 149;
   151; 153; 154; 156; 158; 160; 162; 163; 165; 167; 169; 171; 173; 174; 176; 178; 180; 182; 183; 185; 187; 189; 191; 192; 194; 196; 198; 199; 201; 203;
   205; 207; 208; 210; 212; 214; 216; 217; 219; 221; 223; 225; 226; 228; 230; 232; 233; 235; 237; 239; 241; 242; 244; 246; 248; 250; 251; 253; 255]);
   (13, [1; 5; 10; 14; 18; 22; 25; 28; 31; 33; 36; 39; 41; 43; 46; 48; 50; 53; 55; 57; 59; 61; 63; 65; 67; 69; 71; 73; 75; 77; 79; 81; 83; 85; 87; 89; 91; 93;
   95; 97; 99; 101; 102; 104; 106; 108; 110; 112; 114; 116; 117; 119; 121; 123; 125; 127; 129; 130; 132; 134; 136; 138; 140; 141; 143; 145; 147; 149;
   151; 152; 154; 156; 158; 160; 161; 163; 165; 167; 169; 170; 172; 174; 176; 178; 180; 181; 183; 185; 187; 189; 190; 192; 194; 196; 197; 199; 201; 203;
   205; 206; 208; 210; 212; 214; 215; 217; 219; 221; 223; 224; 226; 228; 230; 232; 233; 235; 237; 239; 240; 242; 244; 246; 248; 249; 251; 253; 255]);
   (14, [1; 6; 11; 16; 19; 23; 26; 29; 32; 35; 37; 40; 42; 45; 47; 49; 52; 54; 56; 58; 60; 62; 64; 67; 69; 71; 73; 75; 77; 79; 81; 83; 85; 87; 89; 90; 92; 94;
   96; 98; 100; 102; 104; 106; 108; 110; 111; 113; 115; 117; 119; 121; 123; 124; 126; 128; 130; 132; 134; 136; 137; 139; 141; 143; 145; 147; 148; 150;
   152; 154; 156; 158; 159; 161; 163; 165; 167; 168; 170; 172; 174; 176; 177; 179; 181; 183; 185; 186; 188; 190; 192; 194; 195; 197; 199; 201; 203; 204;
   206; 208; 210; 212; 213; 215; 217; 219; 221; 222; 224; 226; 228; 230; 231; 233; 235; 237; 239; 240; 242; 244; 246; 247; 249; 251; 253; 255]);
   (15, [2; 7; 12; 17; 20; 24; 27; 30; 33; 36; 38; 41; 43; 46; 48; 50; 53; 55; 57; 59; 61; 64; 66; 68; 70; 72; 74; 76; 78; 80; 82; 84; 86; 88; 90; 92; 94; 96;
   98; 100; 101; 103; 105; 107; 109; 111; 113; 115; 117; 118; 120; 122; 124; 126; 128; 130; 132; 133; 135; 137; 139; 141; 143; 144; 146; 148; 150; 152;
   154; 155; 157; 159; 161; 163; 165; 166; 168; 170; 172; 174; 175; 177; 179; 181; 183; 184; 186; 188; 190; 192; 193; 195; 197; 199; 201; 202; 204; 206;
   208; 210; 211; 213; 215; 217; 219; 220; 222; 224; 226; 228; 229; 231; 233; 235; 237; 238; 240; 242; 244; 246; 247; 249; 251; 253; 254]);
   (16, [3; 8; 13; 18; 21; 25; 28; 31; 34; 37; 39; 42; 44; 47; 49; 52; 54; 56; 58; 61; 63; 65; 67; 69; 71; 73; 75; 77; 79; 81; 83; 85; 87; 89; 91; 93; 95; 97;
   99; 101; 103; 105; 107; 109; 111; 112; 114; 116; 118; 120; 122; 124; 126; 127; 129; 131; 133; 135; 137; 139; 140; 142; 144; 146; 148; 150; 151; 153;
   155; 157; 159; 161; 162; 164; 166; 168; 170; 171; 173; 175; 177; 179; 181; 182; 184; 186; 188; 190; 191; 193; 195; 197; 199; 200; 202; 204; 206; 208;
   209; 211; 213; 215; 217; 218; 220; 222; 224; 226; 227; 229; 231; 233; 235; 236; 238; 240; 242; 244; 245; 247; 249; 251; 252; 254]);
   (17, [4; 9; 14; 19; 22; 26; 29; 32; 35; 38; 40; 43; 46; 48; 50; 53; 55; 57; 60; 62; 64; 66; 68; 70; 72; 74; 77; 79; 81; 83; 85; 87; 89; 91; 93; 95; 97; 98;
   100; 102; 104; 106; 108; 110; 112; 114; 116; 118; 119; 121; 123; 125; 127; 129; 131; 133; 134; 136; 138; 140; 142; 144; 146; 147; 149; 151; 153; 155;
   157; 158; 160; 162; 164; 166; 168; 169; 171; 173; 175; 177; 178; 180; 182; 184; 186; 188; 189; 191; 193; 195; 197; 198; 200; 202; 204; 206; 207; 209;
   211; 213; 215; 216; 218; 220; 222; 224; 225; 227; 229; 231; 233; 234; 236; 238; 240; 242; 243; 245; 247; 249; 251; 252; 254]);
   (18, [4; 10; 15; 20; 23; 27; 30; 33; 36; 39; 42; 44; 47; 49; 52; 54; 56; 58; 61; 63; 65; 67; 69; 72; 74; 76; 78; 80; 82; 84; 86; 88; 90; 92; 94; 96; 98;
   100; 102; 104; 106; 108; 109; 111; 113; 115; 117; 119; 121; 123; 125; 127; 128; 130; 132; 134; 136; 138; 140; 141; 143; 145; 147; 149; 151; 153; 154;
   156; 158; 160; 162; 164; 165; 167; 169; 171; 173; 175; 176; 178; 180; 182; 184; 185; 187; 189; 191; 193; 195; 196; 198; 200; 202; 204; 205; 207; 209;
   211; 213; 214; 216; 218; 220; 222; 223; 225; 227; 229; 231; 232; 234; 236; 238; 240; 241; 243; 245; 247; 249; 250; 252; 254]);
   (19, [5; 11; 16; 21; 25; 28; 31; 34; 37; 40; 43; 45; 48; 50; 53; 55; 57; 60; 62; 64; 66; 69; 71; 73; 75; 77; 79; 81; 83; 85; 87; 89; 91; 93; 95; 97; 99;
   101; 103; 105; 107; 109; 111; 113; 115; 117; 119; 120; 122; 124; 126; 128; 130; 132; 134; 136; 137; 139; 141; 143; 145; 147; 149; 150; 152; 154; 156;
   158; 160; 161; 163; 165; 167; 169; 171; 172; 174; 176; 178; 180; 182; 183; 185; 187; 189; 191; 192; 194; 196; 198; 200; 202; 203; 205; 207; 209; 211;
   212; 214; 216; 218; 220; 221; 223; 225; 227; 229; 230; 232; 234; 236; 238; 239; 241; 243; 245; 247; 248; 250; 252; 254]);
   (20, [6; 12; 17; 22; 26; 29; 32; 35; 38; 41; 44; 46; 49; 51; 54; 56; 59; 61; 63; 65; 68; 70; 72; 74; 76; 78; 80; 82; 85; 87; 89; 91; 93; 95; 97; 99; 101;
   103; 104; 106; 108; 110; 112; 114; 116; 118; 120; 122; 124; 126; 128; 129; 131; 133; 135; 137; 139; 141; 143; 144; 146; 148; 150; 152; 154; 156; 157;
   159; 161; 163; 165; 167; 168; 170; 172; 174; 176; 178; 179; 181; 183; 185; 187; 189; 190; 192; 194; 196; 198; 199; 201; 203; 205; 207; 209; 210; 212;
   214; 216; 218; 219; 221; 223; 225; 227; 228; 230; 232; 234; 236; 237; 239; 241; 243; 245; 246; 248; 250; 252; 254; 255]);
   (20, [1; 7; 13; 18; 23; 27; 30; 33; 36; 39; 42; 45; 47; 50; 53; 55; 57; 60; 62; 64; 67; 69; 71; 73; 75; 77; 80; 82; 84; 86; 88; 90; 92; 94; 96; 98; 100;
   102; 104; 106; 108; 110; 112; 114; 116; 118; 119; 121; 123; 125; 127; 129; 131; 133; 135; 137; 138; 140; 142; 144; 146; 148; 150; 151; 153; 155; 157;
   159; 161; 163; 164; 166; 168; 170; 172; 174; 175; 177; 179; 181; 183; 185; 186; 188; 190; 192; 194; 196; 197; 199; 201; 203; 205; 206; 208; 210; 212;
   214; 216; 217; 219; 221; 223; 225; 226; 228; 230; 232; 234; 235; 237; 239; 241; 243; 244; 246; 248; 250; 252; 253; 255]);
   (21, [2; 8; 15; 20; 24; 28; 31; 34; 37; 40; 43; 46; 49; 51; 54; 56; 59; 61; 63; 65; 68; 70; 72; 74; 77; 79; 81; 83; 85; 87; 89; 91; 93; 95; 97; 99; 101;
   103; 105; 107; 109; 111; 113; 115; 117; 119; 121; 123; 125; 127; 128; 130; 132; 134; 136; 138; 140; 142; 144; 145; 147; 149; 151; 153; 155; 157; 159;
   160; 162; 164; 166; 168; 170; 171; 173; 175; 177; 179; 181; 182; 184; 186; 188; 190; 192; 193; 195; 197; 199; 201; 203; 204; 206; 208; 210; 212; 213;
   215; 217; 219; 221; 222; 224; 226; 228; 230; 232; 233; 235; 237; 239; 241; 242; 244; 246; 248; 250; 251; 253; 255]);
   (22, [3; 10; 16; 21; 25; 29; 32; 35; 38; 41; 44; 47; 50; 52; 55; 57; 60; 62; 64; 67; 69; 71; 73; 76; 78; 80; 82; 84; 86; 88; 90; 92; 95; 97; 99; 101; 103;
   105; 107; 109; 111; 112; 114; 116; 118; 120; 122; 124; 126; 128; 130; 132; 134; 136; 137; 139; 141; 143; 145; 147; 149; 151; 153; 154; 156; 158; 160;
   162; 164; 166; 167; 169; 171; 173; 175; 177; 178; 180; 182; 184; 186; 188; 189; 191; 193; 195; 197; 199; 200; 202; 204; 206; 208; 210; 211; 213; 215;
   217; 219; 220; 222; 224; 226; 228; 229; 231; 233; 235; 237; 239; 240; 242; 244; 246; 248; 249; 251; 253; 255]);
   (23, [4; 11; 17; 22; 26; 30; 33; 36; 40; 42; 45; 48; 51; 53; 56; 58; 61; 63; 66; 68; 70; 72; 75; 77; 79; 81; 83; 85; 88; 90; 92; 94; 96; 98; 100; 102; 104;
   106; 108; 110; 112; 114; 116; 118; 120; 122; 124; 126; 127; 129; 131; 133; 135; 137; 139; 141; 143; 145; 146; 148; 150; 152; 154; 156; 158; 160; 161;
   163; 165; 167; 169; 171; 173; 174; 176; 178; 180; 182; 184; 185; 187; 189; 191; 193; 195; 196; 198; 200; 202; 204; 206; 207; 209; 211; 213; 215; 217;
   218; 220; 222; 224; 226; 227; 229; 231; 233; 235; 236; 238; 240; 242; 244; 245; 247; 249; 251; 253; 255]);
   (24, [5; 12; 18; 23; 27; 31; 34; 37; 41; 44; 46; 49; 52; 54; 57; 59; 62; 64; 67; 69; 71; 74; 76; 78; 80; 82; 85; 87; 89; 91; 93; 95; 97; 99; 101; 103; 105;
   107; 109; 111; 113; 115; 117; 119; 121; 123; 125; 127; 129; 131; 133; 135; 136; 138; 140; 142; 144; 146; 148; 150; 152; 154; 155; 157; 159; 161; 163;
   165; 167; 168; 170; 172; 174; 176; 178; 180; 181; 183; 185; 187; 189; 191; 192; 194; 196; 198; 200; 202; 203; 205; 207; 209; 211; 213; 214; 216; 218;
   220; 222; 224; 225; 227; 229; 231; 233; 234; 236; 238; 240; 242; 243; 245; 247; 249; 251; 252; 254]);
   (25, [6; 13; 19; 24; 28; 32; 35; 39; 42; 45; 47; 50; 53; 56; 58; 61; 63; 65; 68; 70; 72; 75; 77; 79; 81; 84; 86; 88; 90; 92; 94; 96; 98; 100; 102; 104;
   107; 109; 111; 113; 115; 117; 118; 120; 122; 124; 126; 128; 130; 132; 134; 136; 138; 140; 142; 144; 146; 147; 149; 151; 153; 155; 157; 159; 161; 162;
   164; 166; 168; 170; 172; 174; 176; 177; 179; 181; 183; 185; 187; 188; 190; 192; 194; 196; 198; 200; 201; 203; 205; 207; 209; 210; 212; 214; 216; 218;
   220; 221; 223; 225; 227; 229; 231; 232; 234; 236; 238; 240; 241; 243; 245; 247; 249; 250; 252; 254]);
   (26, [7; 14; 20; 25; 29; 33; 36; 40; 43; 46; 49; 51; 54; 57; 59; 62; 64; 67; 69; 71; 74; 76; 78; 80; 83; 85; 87; 89; 91; 93; 95; 98; 100; 102; 104; 106;
   108; 110; 112; 114; 116; 118; 120; 122; 124; 126; 128; 130; 132; 134; 135; 137; 139; 141; 143; 145; 147; 149; 151; 153; 155; 156; 158; 160; 162; 164;
   166; 168; 170; 171; 173; 175; 177; 179; 181; 183; 184; 186; 188; 190; 192; 194; 195; 197; 199; 201; 203; 205; 207; 208; 210; 212; 214; 216; 217; 219;
   221; 223; 225; 227; 228; 230; 232; 234; 236; 238; 239; 241; 243; 245; 247; 248; 250; 252; 254]);
   (26, [1; 8; 16; 21; 26; 30; 34; 37; 41; 44; 47; 50; 52; 55; 58; 60; 63; 65; 68; 70; 72; 75; 77; 79; 82; 84; 86; 88; 90; 92; 95; 97; 99; 101; 103; 105; 107;
   109; 111; 113; 115; 117; 119; 121; 123; 125; 127; 129; 131; 133; 135; 137; 139; 141; 143; 145; 146; 148; 150; 152; 154; 156; 158; 160; 162; 163; 165;
   167; 169; 171; 173; 175; 177; 178; 180; 182; 184; 186; 188; 190; 191; 193; 195; 197; 199; 201; 203; 204; 206; 208; 210; 212; 214; 215; 217; 219; 221;
   223; 224; 226; 228; 230; 232; 234; 235; 237; 239; 241; 243; 244; 246; 248; 250; 252; 254; 255]);
   (27, [2; 10; 17; 22; 27; 31; 35; 38; 42; 45; 48; 51; 53; 56; 59; 61; 64; 66; 69; 71; 74; 76; 78; 81; 83; 85; 87; 89; 92; 94; 96; 98; 100; 102; 104; 106;
   108; 110; 112; 114; 116; 118; 120; 122; 124; 126; 128; 130; 132; 134; 136; 138; 140; 142; 144; 146; 148; 150; 152; 154; 155; 157; 159; 161; 163; 165;
   167; 169; 171; 172; 174; 176; 178; 180; 182; 184; 186; 187; 189; 191; 193; 195; 197; 198; 200; 202; 204; 206; 208; 210; 211; 213; 215; 217; 219; 221;
   222; 224; 226; 228; 230; 231; 233; 235; 237; 239; 241; 242; 244; 246; 248; 250; 251; 253; 255]);
   (28, [3; 11; 18; 23; 28; 32; 36; 39; 43; 46; 49; 52; 55; 57; 60; 63; 65; 68; 70; 72; 75; 77; 79; 82; 84; 86; 88; 91; 93; 95; 97; 99; 101; 103; 106; 108;
   110; 112; 114; 116; 118; 120; 122; 124; 126; 128; 130; 132; 134; 136; 138; 140; 141; 143; 145; 147; 149; 151; 153; 155; 157; 159; 161; 163; 164; 166;
   168; 170; 172; 174; 176; 178; 180; 181; 183; 185; 187; 189; 191; 193; 194; 196; 198; 200; 202; 204; 206; 207; 209; 211; 213; 215; 217; 218; 220; 222;
   224; 226; 228; 229; 231; 233; 235; 237; 238; 240; 242; 244; 246; 248; 249; 251; 253; 255]);
   (29, [4; 12; 19; 24; 29; 33; 37; 40; 44; 47; 50; 53; 56; 58; 61; 64; 66; 69; 71; 74; 76; 78; 81; 83; 85; 87; 90; 92; 94; 96; 98; 100; 103; 105; 107; 109;
   111; 113; 115; 117; 119; 121; 123; 125; 127; 129; 131; 133; 135; 137; 139; 141; 143; 145; 147; 149; 151; 153; 154; 156; 158; 160; 162; 164; 166; 168;
   170; 172; 173; 175; 177; 179; 181; 183; 185; 187; 188; 190; 192; 194; 196; 198; 200; 201; 203; 205; 207; 209; 211; 213; 214; 216; 218; 220; 222; 224;
   225; 227; 229; 231; 233; 235; 236; 238; 240; 242; 244; 245; 247; 249; 251; 253; 255]);
   (30, [5; 14; 20; 25; 30; 34; 38; 41; 45; 48; 51; 54; 57; 59; 62; 65; 67; 70; 72; 75; 77; 79; 82; 84; 86; 89; 91; 93; 95; 97; 100; 102; 104; 106; 108; 110;
   112; 114; 116; 118; 120; 122; 124; 126; 128; 130; 132; 134; 136; 138; 140; 142; 144; 146; 148; 150; 152; 154; 156; 158; 160; 162; 163; 165; 167; 169;
   171; 173; 175; 177; 179; 181; 182; 184; 186; 188; 190; 192; 194; 195; 197; 199; 201; 203; 205; 207; 208; 210; 212; 214; 216; 218; 220; 221; 223; 225;
   227; 229; 231; 232; 234; 236; 238; 240; 242; 243; 245; 247; 249; 251; 252; 254]);
   (31, [6; 15; 21; 27; 31; 35; 39; 42; 46; 49; 52; 55; 58; 61; 63; 66; 68; 71; 73; 76; 78; 81; 83; 85; 88; 90; 92; 94; 96; 99; 101; 103; 105; 107; 109; 111;
   113; 116; 118; 120; 122; 124; 126; 128; 130; 132; 134; 136; 138; 140; 142; 144; 146; 148; 149; 151; 153; 155; 157; 159; 161; 163; 165; 167; 169; 171;
   173; 174; 176; 178; 180; 182; 184; 186; 188; 189; 191; 193; 195; 197; 199; 201; 203; 204; 206; 208; 210; 212; 214; 215; 217; 219; 221; 223; 225; 227;
   228; 230; 232; 234; 236; 238; 239; 241; 243; 245; 247; 249; 250; 252; 254]);
   (32, [8; 16; 22; 28; 32; 36; 40; 43; 47; 50; 53; 56; 59; 62; 64; 67; 70; 72; 75; 77; 79; 82; 84; 86; 89; 91; 93; 95; 98; 100; 102; 104; 106; 108; 111; 113;
   115; 117; 119; 121; 123; 125; 127; 129; 131; 133; 135; 137; 139; 141; 143; 145; 147; 149; 151; 153; 155; 157; 159; 161; 162; 164; 166; 168; 170; 172;
   174; 176; 178; 180; 181; 183; 185; 187; 189; 191; 193; 195; 197; 198; 200; 202; 204; 206; 208; 210; 211; 213; 215; 217; 219; 221; 223; 224; 226; 228;
   230; 232; 234; 235; 237; 239; 241; 243; 245; 246; 248; 250; 252; 254]);
   (33, [9; 17; 24; 29; 33; 37; 41; 44; 48; 51; 54; 57; 60; 63; 65; 68; 71; 73; 76; 78; 81; 83; 85; 88; 90; 92; 94; 97; 99; 101; 103; 105; 108; 110; 112; 114;
   116; 118; 120; 122; 124; 126; 128; 130; 132; 134; 136; 138; 140; 142; 144; 146; 148; 150; 152; 154; 156; 158; 160; 162; 164; 166; 168; 170; 172; 173;
   175; 177; 179; 181; 183; 185; 187; 189; 190; 192; 194; 196; 198; 200; 202; 204; 205; 207; 209; 211; 213; 215; 217; 218; 220; 222; 224; 226; 228; 230;
   231; 233; 235; 237; 239; 241; 242; 244; 246; 248; 250; 252; 253; 255]);
   (33, [1; 11; 19; 25; 30; 34; 38; 42; 46; 49; 52; 55; 58; 61; 64; 66; 69; 72; 74; 77; 79; 82; 84; 86; 89; 91; 93; 96; 98; 100; 102; 104; 107; 109; 111; 113;
   115; 117; 119; 121; 124; 126; 128; 130; 132; 134; 136; 138; 140; 142; 144; 146; 148; 150; 152; 154; 156; 157; 159; 161; 163; 165; 167; 169; 171; 173;
   175; 177; 179; 181; 182; 184; 186; 188; 190; 192; 194; 196; 198; 199; 201; 203; 205; 207; 209; 211; 213; 214; 216; 218; 220; 222; 224; 225; 227; 229;
   231; 233; 235; 237; 238; 240; 242; 244; 246; 248; 249; 251; 253; 255]);
   (34, [3; 12; 20; 26; 31; 35; 39; 43; 47; 50; 53; 56; 59; 62; 65; 68; 70; 73; 75; 78; 80; 83; 85; 88; 90; 92; 95; 97; 99; 101; 103; 106; 108; 110; 112; 114;
   116; 119; 121; 123; 125; 127; 129; 131; 133; 135; 137; 139; 141; 143; 145; 147; 149; 151; 153; 155; 157; 159; 161; 163; 165; 167; 169; 170; 172; 174;
   176; 178; 180; 182; 184; 186; 188; 190; 191; 193; 195; 197; 199; 201; 203; 205; 206; 208; 210; 212; 214; 216; 218; 220; 221; 223; 225; 227; 229; 231;
   233; 234; 236; 238; 240; 242; 244; 245; 247; 249; 251; 253; 255]);
   (35, [4; 14; 21; 27; 32; 36; 40; 44; 48; 51; 54; 57; 60; 63; 66; 69; 71; 74; 76; 79; 81; 84; 86; 89; 91; 93; 96; 98; 100; 102; 105; 107; 109; 111; 113;
   116; 118; 120; 122; 124; 126; 128; 130; 132; 134; 136; 138; 140; 142; 144; 146; 148; 150; 152; 154; 156; 158; 160; 162; 164; 166; 168; 170; 172; 174;
   176; 178; 180; 181; 183; 185; 187; 189; 191; 193; 195; 197; 199; 200; 202; 204; 206; 208; 210; 212; 214; 215; 217; 219; 221; 223; 225; 227; 228; 230;
   232; 234; 236; 238; 240; 241; 243; 245; 247; 249; 251; 252; 254]);
   (36, [5; 15; 22; 28; 33; 37; 41; 45; 49; 52; 55; 58; 61; 64; 67; 70; 72; 75; 78; 80; 83; 85; 87; 90; 92; 95; 97; 99; 101; 104; 106; 108; 110; 112; 115;
   117; 119; 121; 123; 125; 127; 129; 131; 134; 136; 138; 140; 142; 144; 146; 148; 150; 152; 154; 156; 158; 160; 162; 164; 165; 167; 169; 171; 173; 175;
   177; 179; 181; 183; 185; 187; 189; 190; 192; 194; 196; 198; 200; 202; 204; 206; 208; 209; 211; 213; 215; 217; 219; 221; 222; 224; 226; 228; 230; 232;
   234; 235; 237; 239; 241; 243; 245; 247; 248; 250; 252; 254]);
   (37, [7; 16; 23; 29; 34; 38; 42; 46; 50; 53; 56; 59; 62; 65; 68; 71; 73; 76; 79; 81; 84; 86; 89; 91; 93; 96; 98; 100; 103; 105; 107; 109; 112; 114; 116;
   118; 120; 122; 124; 126; 129; 131; 133; 135; 137; 139; 141; 143; 145; 147; 149; 151; 153; 155; 157; 159; 161; 163; 165; 167; 169; 171; 173; 175; 177;
   178; 180; 182; 184; 186; 188; 190; 192; 194; 196; 198; 199; 201; 203; 205; 207; 209; 211; 213; 215; 216; 218; 220; 222; 224; 226; 228; 230; 231; 233;
   235; 237; 239; 241; 243; 244; 246; 248; 250; 252; 254; 255]);
   (38, [8; 18; 25; 30; 35; 39; 43; 47; 51; 54; 57; 60; 63; 66; 69; 72; 75; 77; 80; 82; 85; 87; 90; 92; 95; 97; 99; 102; 104; 106; 108; 111; 113; 115; 117;
   119; 121; 124; 126; 128; 130; 132; 134; 136; 138; 140; 142; 144; 146; 148; 150; 152; 154; 156; 158; 160; 162; 164; 166; 168; 170; 172; 174; 176; 178;
   180; 182; 184; 186; 188; 189; 191; 193; 195; 197; 199; 201; 203; 205; 207; 208; 210; 212; 214; 216; 218; 220; 222; 224; 225; 227; 229; 231; 233; 235;
   237; 238; 240; 242; 244; 246; 248; 250; 251; 253; 255]);
   (39, [10; 19; 26; 31; 36; 40; 44; 48; 52; 55; 58; 61; 64; 67; 70; 73; 76; 78; 81; 83; 86; 88; 91; 93; 96; 98; 100; 103; 105; 107; 109; 112; 114; 116; 118;
   120; 123; 125; 127; 129; 131; 133; 135; 137; 139; 141; 144; 146; 148; 150; 152; 154; 156; 158; 160; 162; 164; 166; 168; 170; 171; 173; 175; 177; 179;
   181; 183; 185; 187; 189; 191; 193; 195; 197; 199; 200; 202; 204; 206; 208; 210; 212; 214; 216; 217; 219; 221; 223; 225; 227; 229; 231; 232; 234; 236;
   238; 240; 242; 244; 245; 247; 249; 251; 253; 255]);
   (40, [12; 20; 27; 32; 37; 41; 45; 49; 53; 56; 59; 62; 65; 68; 71; 74; 77; 79; 82; 85; 87; 90; 92; 94; 97; 99; 102; 104; 106; 108; 111; 113; 115; 117; 120;
   122; 124; 126; 128; 130; 132; 134; 137; 139; 141; 143; 145; 147; 149; 151; 153; 155; 157; 159; 161; 163; 165; 167; 169; 171; 173; 175; 177; 179; 181;
   183; 185; 186; 188; 190; 192; 194; 196; 198; 200; 202; 204; 206; 208; 209; 211; 213; 215; 217; 219; 221; 223; 225; 226; 228; 230; 232; 234; 236; 238;
   239; 241; 243; 245; 247; 249; 251; 253; 254]);
   (40, [2; 13; 22; 28; 33; 38; 42; 46; 50; 54; 57; 60; 63; 67; 69; 72; 75; 78; 80; 83; 86; 88; 91; 93; 96; 98; 100; 103; 105; 107; 110; 112; 114; 116; 119;
   121; 123; 125; 127; 129; 131; 134; 136; 138; 140; 142; 144; 146; 148; 150; 152; 154; 156; 158; 160; 162; 164; 166; 168; 170; 172; 174; 176; 178; 180;
   182; 184; 186; 188; 190; 192; 194; 196; 197; 199; 201; 203; 205; 207; 209; 211; 213; 215; 217; 218; 220; 222; 224; 226; 228; 230; 232; 233; 235; 237;
   239; 241; 243; 245; 247; 248; 250; 252; 254]);
   (41, [3; 15; 23; 29; 34; 39; 44; 47; 51; 55; 58; 61; 65; 68; 70; 73; 76; 79; 82; 84; 87; 89; 92; 94; 97; 99; 102; 104; 106; 109; 111; 113; 115; 118; 120;
   122; 124; 126; 128; 131; 133; 135; 137; 139; 141; 143; 145; 147; 149; 151; 154; 156; 158; 160; 162; 164; 166; 168; 170; 172; 174; 176; 177; 179; 181;
   183; 185; 187; 189; 191; 193; 195; 197; 199; 201; 203; 205; 207; 208; 210; 212; 214; 216; 218; 220; 222; 224; 226; 227; 229; 231; 233; 235; 237; 239;
   241; 242; 244; 246; 248; 250; 252; 254; 255]);
   (42, [5; 16; 24; 30; 36; 40; 45; 49; 52; 56; 59; 62; 66; 69; 72; 74; 77; 80; 83; 85; 88; 90; 93; 95; 98; 100; 103; 105; 107; 110; 112; 114; 117; 119; 121;
   123; 125; 128; 130; 132; 134; 136; 138; 140; 142; 145; 147; 149; 151; 153; 155; 157; 159; 161; 163; 165; 167; 169; 171; 173; 175; 177; 179; 181; 183;
   185; 187; 189; 191; 193; 194; 196; 198; 200; 202; 204; 206; 208; 210; 212; 214; 216; 217; 219; 221; 223; 225; 227; 229; 231; 233; 234; 236; 238; 240;
   242; 244; 246; 248; 249; 251; 253; 255]);
   (43, [7; 18; 25; 31; 37; 41; 46; 50; 53; 57; 60; 63; 67; 70; 73; 75; 78; 81; 84; 86; 89; 92; 94; 97; 99; 101; 104; 106; 109; 111; 113; 115; 118; 120; 122;
   124; 127; 129; 131; 133; 135; 137; 139; 142; 144; 146; 148; 150; 152; 154; 156; 158; 160; 162; 164; 166; 168; 170; 172; 174; 176; 178; 180; 182; 184;
   186; 188; 190; 192; 194; 196; 198; 200; 202; 204; 205; 207; 209; 211; 213; 215; 217; 219; 221; 223; 225; 226; 228; 230; 232; 234; 236; 238; 240; 242;
   243; 245; 247; 249; 251; 253; 255]);
   (44, [9; 19; 27; 33; 38; 42; 47; 51; 54; 58; 61; 65; 68; 71; 74; 77; 79; 82; 85; 87; 90; 93; 95; 98; 100; 103; 105; 107; 110; 112; 114; 117; 119; 121; 123;
   126; 128; 130; 132; 134; 136; 139; 141; 143; 145; 147; 149; 151; 153; 155; 157; 159; 161; 164; 166; 168; 170; 172; 174; 176; 178; 180; 182; 183; 185;
   187; 189; 191; 193; 195; 197; 199; 201; 203; 205; 207; 209; 211; 213; 215; 216; 218; 220; 222; 224; 226; 228; 230; 232; 234; 235; 237; 239; 241; 243;
   245; 247; 249; 250; 252; 254]);
   (45, [10; 21; 28; 34; 39; 43; 48; 52; 55; 59; 62; 66; 69; 72; 75; 78; 80; 83; 86; 89; 91; 94; 96; 99; 101; 104; 106; 108; 111; 113; 115; 118; 120; 122;
   125; 127; 129; 131; 133; 136; 138; 140; 142; 144; 146; 148; 150; 152; 155; 157; 159; 161; 163; 165; 167; 169; 171; 173; 175; 177; 179; 181; 183; 185;
   187; 189; 191; 193; 195; 197; 199; 201; 202; 204; 206; 208; 210; 212; 214; 216; 218; 220; 222; 224; 226; 227; 229; 231; 233; 235; 237; 239; 241; 243;
   244; 246; 248; 250; 252; 254]);
   (46, [12; 22; 29; 35; 40; 44; 49; 53; 56; 60; 63; 67; 70; 73; 76; 79; 82; 84; 87; 90; 92; 95; 97; 100; 102; 105; 107; 110; 112; 114; 117; 119; 121; 124;
   126; 128; 130; 132; 135; 137; 139; 141; 143; 145; 147; 150; 152; 154; 156; 158; 160; 162; 164; 166; 168; 170; 172; 174; 176; 178; 180; 182; 184; 186;
   188; 190; 192; 194; 196; 198; 200; 202; 204; 206; 208; 210; 212; 213; 215; 217; 219; 221; 223; 225; 227; 229; 231; 233; 235; 236; 238; 240; 242; 244;
   246; 248; 250; 252; 253; 255]);
   (46, [1; 14; 23; 30; 36; 41; 45; 50; 54; 57; 61; 64; 68; 71; 74; 77; 80; 83; 85; 88; 91; 93; 96; 99; 101; 104; 106; 108; 111; 113; 115; 118; 120; 122; 125;
   127; 129; 131; 134; 136; 138; 140; 142; 144; 147; 149; 151; 153; 155; 157; 159; 161; 163; 165; 167; 169; 171; 173; 176; 178; 180; 182; 184; 186; 188;
   189; 191; 193; 195; 197; 199; 201; 203; 205; 207; 209; 211; 213; 215; 217; 219; 221; 223; 224; 226; 228; 230; 232; 234; 236; 238; 240; 242; 244; 245;
   247; 249; 251; 253; 255]);
   (47, [3; 16; 25; 31; 37; 42; 47; 51; 55; 58; 62; 65; 69; 72; 75; 78; 81; 84; 86; 89; 92; 94; 97; 100; 102; 105; 107; 110; 112; 114; 117; 119; 121; 124;
   126; 128; 130; 133; 135; 137; 139; 141; 144; 146; 148; 150; 152; 154; 156; 158; 160; 162; 165; 167; 169; 171; 173; 175; 177; 179; 181; 183; 185; 187;
   189; 191; 193; 195; 197; 199; 201; 203; 205; 207; 208; 210; 212; 214; 216; 218; 220; 222; 224; 226; 228; 230; 232; 234; 235; 237; 239; 241; 243; 245;
   247; 249; 251; 252; 254]);
   (48, [5; 17; 26; 32; 38; 43; 48; 52; 56; 59; 63; 66; 70; 73; 76; 79; 82; 85; 87; 90; 93; 96; 98; 101; 103; 106; 108; 111; 113; 115; 118; 120; 122; 125;
   127; 129; 132; 134; 136; 138; 140; 143; 145; 147; 149; 151; 153; 155; 158; 160; 162; 164; 166; 168; 170; 172; 174; 176; 178; 180; 182; 184; 186; 188;
   190; 192; 194; 196; 198; 200; 202; 204; 206; 208; 210; 212; 214; 216; 218; 220; 221; 223; 225; 227; 229; 231; 233; 235; 237; 239; 241; 243; 244; 246;
   248; 250; 252; 254]);
   (49, [7; 19; 27; 34; 39; 44; 49; 53; 57; 60; 64; 67; 71; 74; 77; 80; 83; 86; 89; 91; 94; 97; 99; 102; 104; 107; 109; 112; 114; 117; 119; 121; 124; 126;
   128; 130; 133; 135; 137; 139; 142; 144; 146; 148; 150; 152; 155; 157; 159; 161; 163; 165; 167; 169; 171; 173; 175; 177; 179; 181; 183; 185; 187; 189;
   191; 193; 195; 197; 199; 201; 203; 205; 207; 209; 211; 213; 215; 217; 219; 221; 223; 225; 227; 229; 231; 233; 234; 236; 238; 240; 242; 244; 246; 248;
   250; 252; 253; 255]);
   (50, [9; 20; 28; 35; 40; 45; 50; 54; 58; 62; 65; 68; 72; 75; 78; 81; 84; 87; 90; 92; 95; 98; 100; 103; 105; 108; 110; 113; 115; 118; 120; 122; 125; 127;
   129; 132; 134; 136; 138; 141; 143; 145; 147; 149; 152; 154; 156; 158; 160; 162; 164; 166; 168; 170; 173; 175; 177; 179; 181; 183; 185; 187; 189; 191;
   193; 195; 197; 199; 201; 203; 205; 207; 209; 211; 213; 215; 216; 218; 220; 222; 224; 226; 228; 230; 232; 234; 236; 238; 240; 242; 243; 245; 247; 249;
   251; 253; 255]);
   (51, [11; 22; 30; 36; 41; 46; 51; 55; 59; 63; 66; 70; 73; 76; 79; 82; 85; 88; 91; 93; 96; 99; 101; 104; 107; 109; 112; 114; 116; 119; 121; 124; 126; 128;
   131; 133; 135; 137; 140; 142; 144; 146; 148; 151; 153; 155; 157; 159; 161; 163; 165; 168; 170; 172; 174; 176; 178; 180; 182; 184; 186; 188; 190; 192;
   194; 196; 198; 200; 202; 204; 206; 208; 210; 212; 214; 216; 218; 220; 222; 224; 226; 228; 229; 231; 233; 235; 237; 239; 241; 243; 245; 247; 249; 251;
   252; 254]);
   (52, [13; 23; 31; 37; 42; 47; 52; 56; 60; 64; 67; 71; 74; 77; 80; 83; 86; 89; 92; 95; 97; 100; 103; 105; 108; 110; 113; 115; 118; 120; 122; 125; 127; 129;
   132; 134; 136; 139; 141; 143; 145; 147; 150; 152; 154; 156; 158; 160; 163; 165; 167; 169; 171; 173; 175; 177; 179; 181; 183; 185; 187; 189; 191; 193;
   195; 197; 199; 201; 203; 205; 207; 209; 211; 213; 215; 217; 219; 221; 223; 225; 227; 229; 231; 233; 235; 237; 239; 241; 242; 244; 246; 248; 250; 252;
   254]);
   (53, [15; 25; 32; 38; 44; 48; 53; 57; 61; 65; 68; 72; 75; 78; 81; 84; 87; 90; 93; 96; 98; 101; 104; 106; 109; 111; 114; 116; 119; 121; 124; 126; 128; 131;
   133; 135; 137; 140; 142; 144; 146; 149; 151; 153; 155; 157; 159; 162; 164; 166; 168; 170; 172; 174; 176; 178; 180; 183; 185; 187; 189; 191; 193; 195;
   197; 199; 201; 203; 205; 207; 209; 211; 213; 215; 217; 219; 221; 223; 224; 226; 228; 230; 232; 234; 236; 238; 240; 242; 244; 246; 248; 250; 251; 253;
   255]);
   (53, [2; 16; 26; 33; 39; 45; 49; 54; 58; 62; 66; 69; 73; 76; 79; 82; 85; 88; 91; 94; 97; 99; 102; 105; 107; 110; 112; 115; 117; 120; 122; 125; 127; 129;
   132; 134; 136; 139; 141; 143; 145; 148; 150; 152; 154; 156; 159; 161; 163; 165; 167; 169; 171; 173; 176; 178; 180; 182; 184; 186; 188; 190; 192; 194;
   196; 198; 200; 202; 204; 206; 208; 210; 212; 214; 216; 218; 220; 222; 224; 226; 228; 230; 232; 234; 236; 237; 239; 241; 243; 245; 247; 249; 251; 253;
   255]);
   (54, [4; 18; 27; 34; 40; 46; 50; 55; 59; 63; 67; 70; 74; 77; 80; 83; 86; 89; 92; 95; 98; 100; 103; 106; 108; 111; 114; 116; 119; 121; 123; 126; 128; 131;
   133; 135; 138; 140; 142; 144; 147; 149; 151; 153; 155; 158; 160; 162; 164; 166; 168; 170; 173; 175; 177; 179; 181; 183; 185; 187; 189; 191; 193; 195;
   197; 199; 201; 203; 205; 207; 209; 211; 213; 215; 217; 219; 221; 223; 225; 227; 229; 231; 233; 235; 237; 239; 241; 243; 245; 247; 249; 250; 252; 254]);
   (55, [6; 20; 29; 36; 42; 47; 52; 56; 60; 64; 68; 71; 75; 78; 81; 84; 87; 90; 93; 96; 99; 102; 104; 107; 110; 112; 115; 117; 120; 122; 125; 127; 129; 132;
   134; 136; 139; 141; 143; 146; 148; 150; 152; 154; 157; 159; 161; 163; 165; 167; 170; 172; 174; 176; 178; 180; 182; 184; 186; 188; 190; 193; 195; 197;
   199; 201; 203; 205; 207; 209; 211; 213; 215; 217; 219; 221; 223; 225; 227; 229; 230; 232; 234; 236; 238; 240; 242; 244; 246; 248; 250; 252; 254]);
   (56, [8; 21; 30; 37; 43; 48; 53; 57; 61; 65; 69; 72; 76; 79; 82; 85; 88; 91; 94; 97; 100; 103; 105; 108; 111; 113; 116; 118; 121; 123; 126; 128; 131; 133;
   135; 138; 140; 142; 144; 147; 149; 151; 153; 156; 158; 160; 162; 164; 167; 169; 171; 173; 175; 177; 179; 181; 183; 186; 188; 190; 192; 194; 196; 198;
   200; 202; 204; 206; 208; 210; 212; 214; 216; 218; 220; 222; 224; 226; 228; 230; 232; 234; 236; 238; 240; 242; 244; 245; 247; 249; 251; 253; 255]);
   (57, [11; 23; 31; 38; 44; 49; 54; 58; 62; 66; 70; 73; 77; 80; 83; 86; 89; 92; 95; 98; 101; 104; 106; 109; 112; 114; 117; 119; 122; 124; 127; 129; 132; 134;
   136; 139; 141; 143; 146; 148; 150; 152; 155; 157; 159; 161; 163; 166; 168; 170; 172; 174; 176; 178; 181; 183; 185; 187; 189; 191; 193; 195; 197; 199;
   201; 203; 205; 207; 209; 211; 213; 215; 217; 219; 221; 223; 225; 227; 229; 231; 233; 235; 237; 239; 241; 243; 245; 247; 249; 251; 253; 255]);
   (58, [13; 24; 33; 39; 45; 50; 55; 59; 63; 67; 71; 74; 78; 81; 84; 87; 90; 93; 96; 99; 102; 105; 108; 110; 113; 115; 118; 121; 123; 126; 128; 130; 133; 135;
   138; 140; 142; 145; 147; 149; 151; 154; 156; 158; 160; 162; 165; 167; 169; 171; 173; 175; 178; 180; 182; 184; 186; 188; 190; 192; 194; 196; 198; 200;
   203; 205; 207; 209; 211; 213; 215; 217; 219; 221; 223; 225; 227; 229; 231; 233; 235; 237; 238; 240; 242; 244; 246; 248; 250; 252; 254]);
   (59, [15; 26; 34; 40; 46; 51; 56; 60; 64; 68; 72; 75; 79; 82; 85; 88; 92; 95; 97; 100; 103; 106; 109; 111; 114; 117; 119; 122; 124; 127; 129; 132; 134;
   136; 139; 141; 143; 146; 148; 150; 153; 155; 157; 159; 161; 164; 166; 168; 170; 172; 175; 177; 179; 181; 183; 185; 187; 189; 191; 194; 196; 198; 200;
   202; 204; 206; 208; 210; 212; 214; 216; 218; 220; 222; 224; 226; 228; 230; 232; 234; 236; 238; 240; 242; 244; 246; 248; 250; 252; 253; 255]);
   (59, [1; 17; 27; 35; 41; 47; 52; 57; 61; 65; 69; 73; 76; 80; 83; 86; 90; 93; 96; 98; 101; 104; 107; 110; 112; 115; 118; 120; 123; 125; 128; 130; 133; 135;
   137; 140; 142; 145; 147; 149; 151; 154; 156; 158; 160; 163; 165; 167; 169; 171; 174; 176; 178; 180; 182; 184; 186; 189; 191; 193; 195; 197; 199; 201;
   203; 205; 207; 209; 211; 213; 215; 217; 219; 221; 223; 225; 227; 229; 231; 233; 235; 237; 239; 241; 243; 245; 247; 249; 251; 253; 255]);
   (60, [3; 19; 29; 36; 43; 48; 53; 58; 62; 66; 70; 74; 77; 81; 84; 87; 91; 94; 97; 100; 102; 105; 108; 111; 113; 116; 119; 121; 124; 126; 129; 131; 134; 136;
   139; 141; 143; 146; 148; 150; 153; 155; 157; 159; 162; 164; 166; 168; 171; 173; 175; 177; 179; 181; 183; 186; 188; 190; 192; 194; 196; 198; 200; 202;
   204; 206; 208; 210; 213; 215; 217; 219; 221; 223; 225; 227; 229; 231; 233; 235; 237; 239; 241; 243; 244; 246; 248; 250; 252; 254]);
   (61, [5; 21; 30; 37; 44; 49; 54; 59; 63; 67; 71; 75; 78; 82; 85; 88; 92; 95; 98; 101; 103; 106; 109; 112; 115; 117; 120; 122; 125; 127; 130; 132; 135; 137;
   140; 142; 145; 147; 149; 152; 154; 156; 158; 161; 163; 165; 167; 170; 172; 174; 176; 178; 180; 183; 185; 187; 189; 191; 193; 195; 197; 199; 201; 204;
   206; 208; 210; 212; 214; 216; 218; 220; 222; 224; 226; 228; 230; 232; 234; 236; 238; 240; 242; 244; 246; 248; 250; 252; 254]);
   (62, [8; 22; 31; 39; 45; 50; 55; 60; 64; 68; 72; 76; 79; 83; 86; 89; 93; 96; 99; 102; 105; 107; 110; 113; 116; 118; 121; 124; 126; 129; 131; 134; 136; 138;
   141; 143; 146; 148; 150; 153; 155; 157; 160; 162; 164; 166; 169; 171; 173; 175; 177; 179; 182; 184; 186; 188; 190; 192; 194; 196; 199; 201; 203; 205;
   207; 209; 211; 213; 215; 217; 219; 221; 223; 225; 227; 229; 231; 233; 235; 237; 239; 241; 243; 245; 247; 249; 251; 253; 255]);
   (63, [10; 24; 33; 40; 46; 51; 56; 61; 65; 69; 73; 77; 80; 84; 87; 91; 94; 97; 100; 103; 106; 108; 111; 114; 117; 119; 122; 125; 127; 130; 132; 135; 137;
   140; 142; 144; 147; 149; 152; 154; 156; 158; 161; 163; 165; 167; 170; 172; 174; 176; 179; 181; 183; 185; 187; 189; 191; 194; 196; 198; 200; 202; 204;
   206; 208; 210; 212; 214; 216; 218; 220; 223; 225; 227; 229; 231; 233; 235; 237; 239; 241; 243; 245; 247; 249; 250; 252; 254]);
   (64, [13; 25; 34; 41; 47; 53; 57; 62; 66; 70; 74; 78; 82; 85; 88; 92; 95; 98; 101; 104; 107; 110; 112; 115; 118; 120; 123; 126; 128; 131; 133; 136; 138;
   141; 143; 146; 148; 150; 153; 155; 157; 160; 162; 164; 166; 169; 171; 173; 175; 178; 180; 182; 184; 186; 188; 191; 193; 195; 197; 199; 201; 203; 205;
   207; 209; 212; 214; 216; 218; 220; 222; 224; 226; 228; 230; 232; 234; 236; 238; 240; 242; 244; 246; 248; 250; 252; 254]);
   (65, [15; 27; 35; 42; 48; 54; 59; 63; 67; 71; 75; 79; 83; 86; 89; 93; 96; 99; 102; 105; 108; 111; 113; 116; 119; 122; 124; 127; 129; 132; 134; 137; 139;
   142; 144; 147; 149; 151; 154; 156; 158; 161; 163; 165; 168; 170; 172; 174; 177; 179; 181; 183; 185; 187; 190; 192; 194; 196; 198; 200; 202; 204; 207;
   209; 211; 213; 215; 217; 219; 221; 223; 225; 227; 229; 231; 233; 235; 237; 239; 241; 243; 245; 247; 249; 251; 253; 255]);
   (66, [17; 28; 37; 43; 49; 55; 60; 64; 68; 72; 76; 80; 84; 87; 90; 94; 97; 100; 103; 106; 109; 112; 114; 117; 120; 123; 125; 128; 130; 133; 136; 138; 141;
   143; 145; 148; 150; 153; 155; 157; 160; 162; 164; 167; 169; 171; 173; 176; 178; 180; 182; 184; 187; 189; 191; 193; 195; 197; 199; 202; 204; 206; 208;
   210; 212; 214; 216; 218; 220; 222; 224; 226; 228; 230; 232; 235; 237; 239; 241; 243; 245; 247; 249; 251; 253; 255]);
   (66, [2; 19; 30; 38; 45; 50; 56; 61; 65; 69; 73; 77; 81; 85; 88; 91; 95; 98; 101; 104; 107; 110; 113; 116; 118; 121; 124; 126; 129; 132; 134; 137; 139;
   142; 144; 147; 149; 151; 154; 156; 158; 161; 163; 165; 168; 170; 172; 175; 177; 179; 181; 183; 186; 188; 190; 192; 194; 196; 199; 201; 203; 205; 207;
   209; 211; 213; 215; 217; 219; 222; 224; 226; 228; 230; 232; 234; 236; 238; 240; 242; 244; 246; 248; 250; 252; 254]);
   (67, [4; 21; 31; 39; 46; 52; 57; 62; 66; 70; 74; 78; 82; 86; 89; 92; 96; 99; 102; 105; 108; 111; 114; 117; 119; 122; 125; 127; 130; 133; 135; 138; 140;
   143; 145; 148; 150; 153; 155; 157; 160; 162; 164; 167; 169; 171; 173; 176; 178; 180; 182; 185; 187; 189; 191; 193; 195; 198; 200; 202; 204; 206; 208;
   210; 212; 215; 217; 219; 221; 223; 225; 227; 229; 231; 233; 235; 237; 239; 241; 243; 245; 247; 249; 251; 253; 255]);
   (68, [7; 23; 33; 40; 47; 53; 58; 63; 67; 71; 76; 79; 83; 87; 90; 93; 97; 100; 103; 106; 109; 112; 115; 118; 120; 123; 126; 129; 131; 134; 136; 139; 141;
   144; 146; 149; 151; 154; 156; 158; 161; 163; 165; 168; 170; 172; 175; 177; 179; 181; 184; 186; 188; 190; 192; 195; 197; 199; 201; 203; 205; 207; 209;
   212; 214; 216; 218; 220; 222; 224; 226; 228; 230; 232; 234; 236; 238; 240; 242; 244; 247; 249; 251; 253; 255]);
   (69, [10; 25; 34; 42; 48; 54; 59; 64; 68; 73; 77; 80; 84; 88; 91; 95; 98; 101; 104; 107; 110; 113; 116; 119; 122; 124; 127; 130; 132; 135; 137; 140; 143;
   145; 148; 150; 152; 155; 157; 160; 162; 164; 167; 169; 171; 174; 176; 178; 180; 183; 185; 187; 189; 191; 194; 196; 198; 200; 202; 204; 206; 209; 211;
   213; 215; 217; 219; 221; 223; 225; 227; 229; 232; 234; 236; 238; 240; 242; 244; 246; 248; 250; 252; 254]);
   (70, [13; 26; 36; 43; 49; 55; 60; 65; 69; 74; 78; 81; 85; 89; 92; 96; 99; 102; 105; 108; 111; 114; 117; 120; 123; 125; 128; 131; 133; 136; 139; 141; 144;
   146; 149; 151; 154; 156; 158; 161; 163; 165; 168; 170; 172; 175; 177; 179; 182; 184; 186; 188; 190; 193; 195; 197; 199; 201; 203; 206; 208; 210; 212;
   214; 216; 218; 220; 222; 225; 227; 229; 231; 233; 235; 237; 239; 241; 243; 245; 247; 249; 251; 253; 255]);
   (71, [15; 28; 37; 44; 50; 56; 61; 66; 70; 75; 79; 82; 86; 90; 93; 97; 100; 103; 106; 109; 112; 115; 118; 121; 124; 126; 129; 132; 134; 137; 140; 142; 145;
   147; 150; 152; 155; 157; 160; 162; 164; 167; 169; 171; 174; 176; 178; 180; 183; 185; 187; 189; 192; 194; 196; 198; 200; 203; 205; 207; 209; 211; 213;
   215; 217; 220; 222; 224; 226; 228; 230; 232; 234; 236; 238; 240; 242; 244; 246; 248; 250; 252; 254]);
   (72, [17; 29; 38; 45; 52; 57; 62; 67; 71; 76; 80; 83; 87; 91; 94; 98; 101; 104; 107; 110; 113; 116; 119; 122; 125; 127; 130; 133; 136; 138; 141; 143; 146;
   148; 151; 153; 156; 158; 161; 163; 165; 168; 170; 172; 175; 177; 179; 182; 184; 186; 188; 191; 193; 195; 197; 199; 202; 204; 206; 208; 210; 212; 214;
   217; 219; 221; 223; 225; 227; 229; 231; 233; 235; 237; 240; 242; 244; 246; 248; 250; 252; 254]);
   (73, [20; 31; 40; 47; 53; 58; 63; 68; 72; 77; 81; 85; 88; 92; 95; 99; 102; 105; 108; 111; 114; 117; 120; 123; 126; 129; 131; 134; 137; 139; 142; 144; 147;
   150; 152; 154; 157; 159; 162; 164; 167; 169; 171; 174; 176; 178; 181; 183; 185; 187; 190; 192; 194; 196; 198; 201; 203; 205; 207; 209; 211; 214; 216;
   218; 220; 222; 224; 226; 228; 230; 233; 235; 237; 239; 241; 243; 245; 247; 249; 251; 253; 255]);
   (73, [3; 22; 33; 41; 48; 54; 59; 64; 69; 74; 78; 82; 86; 89; 93; 96; 100; 103; 106; 109; 112; 115; 118; 121; 124; 127; 130; 132; 135; 138; 140; 143; 146;
   148; 151; 153; 156; 158; 161; 163; 165; 168; 170; 172; 175; 177; 179; 182; 184; 186; 189; 191; 193; 195; 197; 200; 202; 204; 206; 208; 211; 213; 215;
   217; 219; 221; 223; 225; 228; 230; 232; 234; 236; 238; 240; 242; 244; 246; 248; 250; 252; 254]);
   (74, [6; 23; 34; 42; 49; 55; 60; 65; 70; 75; 79; 83; 87; 90; 94; 97; 101; 104; 107; 110; 113; 116; 119; 122; 125; 128; 131; 133; 136; 139; 141; 144; 147;
   149; 152; 154; 157; 159; 162; 164; 166; 169; 171; 174; 176; 178; 181; 183; 185; 187; 190; 192; 194; 196; 199; 201; 203; 205; 207; 210; 212; 214; 216;
   218; 220; 222; 225; 227; 229; 231; 233; 235; 237; 239; 241; 243; 245; 247; 250; 252; 254]);
   (75, [9; 25; 35; 43; 50; 56; 62; 67; 71; 76; 80; 84; 88; 91; 95; 98; 102; 105; 108; 111; 114; 117; 120; 123; 126; 129; 132; 135; 137; 140; 143; 145; 148;
   150; 153; 155; 158; 160; 163; 165; 168; 170; 172; 175; 177; 179; 182; 184; 186; 189; 191; 193; 195; 198; 200; 202; 204; 206; 209; 211; 213; 215; 217;
   219; 222; 224; 226; 228; 230; 232; 234; 236; 238; 240; 243; 245; 247; 249; 251; 253; 255]);
   (76, [12; 27; 37; 45; 51; 57; 63; 68; 72; 77; 81; 85; 89; 92; 96; 99; 103; 106; 109; 112; 115; 119; 121; 124; 127; 130; 133; 136; 138; 141; 144; 146; 149;
   151; 154; 156; 159; 161; 164; 166; 169; 171; 174; 176; 178; 181; 183; 185; 188; 190; 192; 194; 197; 199; 201; 203; 205; 208; 210; 212; 214; 216; 219;
   221; 223; 225; 227; 229; 231; 233; 235; 238; 240; 242; 244; 246; 248; 250; 252; 254]);
   (77, [15; 29; 38; 46; 52; 58; 64; 69; 73; 78; 82; 86; 90; 93; 97; 100; 104; 107; 110; 113; 117; 120; 123; 125; 128; 131; 134; 137; 139; 142; 145; 147; 150;
   153; 155; 158; 160; 163; 165; 167; 170; 172; 175; 177; 179; 182; 184; 186; 189; 191; 193; 196; 198; 200; 202; 204; 207; 209; 211; 213; 215; 218; 220;
   222; 224; 226; 228; 230; 233; 235; 237; 239; 241; 243; 245; 247; 249; 251; 253; 255]);
   (78, [17; 30; 40; 47; 54; 59; 65; 70; 74; 79; 83; 87; 91; 94; 98; 101; 105; 108; 111; 114; 118; 121; 124; 126; 129; 132; 135; 138; 140; 143; 146; 148; 151;
   154; 156; 159; 161; 164; 166; 169; 171; 173; 176; 178; 181; 183; 185; 188; 190; 192; 194; 197; 199; 201; 203; 206; 208; 210; 212; 214; 217; 219; 221;
   223; 225; 227; 230; 232; 234; 236; 238; 240; 242; 244; 246; 248; 251; 253; 255]);
   (79, [20; 32; 41; 48; 55; 61; 66; 71; 75; 80; 84; 88; 92; 95; 99; 102; 106; 109; 112; 116; 119; 122; 125; 128; 130; 133; 136; 139; 142; 144; 147; 150; 152;
   155; 157; 160; 162; 165; 167; 170; 172; 175; 177; 179; 182; 184; 186; 189; 191; 193; 196; 198; 200; 202; 205; 207; 209; 211; 213; 216; 218; 220; 222;
   224; 226; 229; 231; 233; 235; 237; 239; 241; 243; 246; 248; 250; 252; 254]);
   (79, [1; 22; 34; 42; 50; 56; 62; 67; 72; 76; 81; 85; 89; 93; 96; 100; 104; 107; 110; 113; 117; 120; 123; 126; 129; 131; 134; 137; 140; 143; 145; 148; 151;
   153; 156; 158; 161; 163; 166; 168; 171; 173; 176; 178; 180; 183; 185; 188; 190; 192; 194; 197; 199; 201; 204; 206; 208; 210; 212; 215; 217; 219; 221;
   223; 226; 228; 230; 232; 234; 236; 238; 241; 243; 245; 247; 249; 251; 253; 255]);
   (80, [4; 24; 35; 44; 51; 57; 63; 68; 73; 77; 82; 86; 90; 94; 97; 101; 105; 108; 111; 114; 118; 121; 124; 127; 130; 133; 135; 138; 141; 144; 146; 149; 152;
   154; 157; 160; 162; 165; 167; 170; 172; 174; 177; 179; 182; 184; 186; 189; 191; 193; 196; 198; 200; 203; 205; 207; 209; 211; 214; 216; 218; 220; 222;
   225; 227; 229; 231; 233; 235; 238; 240; 242; 244; 246; 248; 250; 252; 254]);
   (81, [8; 26; 37; 45; 52; 58; 64; 69; 74; 79; 83; 87; 91; 95; 99; 102; 106; 109; 112; 115; 119; 122; 125; 128; 131; 134; 136; 139; 142; 145; 148; 150; 153;
   155; 158; 161; 163; 166; 168; 171; 173; 176; 178; 180; 183; 185; 188; 190; 192; 195; 197; 199; 201; 204; 206; 208; 210; 213; 215; 217; 219; 221; 224;
   226; 228; 230; 232; 234; 237; 239; 241; 243; 245; 247; 249; 251; 254]);
   (82, [11; 28; 38; 46; 53; 59; 65; 70; 75; 80; 84; 88; 92; 96; 100; 103; 107; 110; 113; 117; 120; 123; 126; 129; 132; 135; 138; 140; 143; 146; 149; 151;
   154; 157; 159; 162; 164; 167; 169; 172; 174; 177; 179; 182; 184; 186; 189; 191; 193; 196; 198; 200; 203; 205; 207; 209; 212; 214; 216; 218; 221; 223;
   225; 227; 229; 231; 234; 236; 238; 240; 242; 244; 246; 248; 251; 253; 255]);
   (83, [14; 29; 39; 48; 54; 61; 66; 71; 76; 81; 85; 89; 93; 97; 101; 104; 108; 111; 114; 118; 121; 124; 127; 130; 133; 136; 139; 141; 144; 147; 150; 152;
   155; 158; 160; 163; 165; 168; 170; 173; 175; 178; 180; 183; 185; 187; 190; 192; 195; 197; 199; 201; 204; 206; 208; 211; 213; 215; 217; 220; 222; 224;
   226; 228; 230; 233; 235; 237; 239; 241; 243; 245; 248; 250; 252; 254]);
   (84, [17; 31; 41; 49; 56; 62; 67; 72; 77; 82; 86; 90; 94; 98; 102; 105; 109; 112; 115; 119; 122; 125; 128; 131; 134; 137; 140; 142; 145; 148; 151; 153;
   156; 159; 161; 164; 166; 169; 172; 174; 176; 179; 181; 184; 186; 189; 191; 193; 196; 198; 200; 203; 205; 207; 209; 212; 214; 216; 218; 221; 223; 225;
   227; 230; 232; 234; 236; 238; 240; 242; 245; 247; 249; 251; 253; 255]);
   (85, [19; 33; 42; 50; 57; 63; 68; 73; 78; 83; 87; 91; 95; 99; 103; 106; 110; 113; 116; 120; 123; 126; 129; 132; 135; 138; 141; 144; 146; 149; 152; 155;
   157; 160; 162; 165; 168; 170; 173; 175; 178; 180; 183; 185; 187; 190; 192; 194; 197; 199; 202; 204; 206; 208; 211; 213; 215; 217; 220; 222; 224; 226;
   229; 231; 233; 235; 237; 239; 242; 244; 246; 248; 250; 252; 254]);
   (86, [22; 34; 44; 51; 58; 64; 69; 75; 79; 84; 88; 92; 96; 100; 104; 107; 111; 114; 117; 121; 124; 127; 130; 133; 136; 139; 142; 145; 147; 150; 153; 156;
   158; 161; 164; 166; 169; 171; 174; 176; 179; 181; 184; 186; 188; 191; 193; 196; 198; 200; 203; 205; 207; 210; 212; 214; 216; 219; 221; 223; 225; 228;
   230; 232; 234; 236; 238; 241; 243; 245; 247; 249; 251; 253]);
   (86, [2; 24; 36; 45; 53; 59; 65; 71; 76; 80; 85; 89; 93; 97; 101; 105; 108; 112; 115; 118; 122; 125; 128; 131; 134; 137; 140; 143; 146; 148; 151; 154; 157;
   159; 162; 165; 167; 170; 172; 175; 177; 180; 182; 185; 187; 190; 192; 194; 197; 199; 201; 204; 206; 208; 211; 213; 215; 218; 220; 222; 224; 227; 229;
   231; 233; 235; 238; 240; 242; 244; 246; 248; 250; 253; 255]);
   (87, [6; 26; 38; 46; 54; 60; 66; 72; 77; 81; 86; 90; 94; 98; 102; 106; 109; 113; 116; 119; 123; 126; 129; 132; 135; 138; 141; 144; 147; 150; 152; 155; 158;
   160; 163; 166; 168; 171; 173; 176; 178; 181; 183; 186; 188; 191; 193; 196; 198; 200; 203; 205; 207; 210; 212; 214; 216; 219; 221; 223; 225; 228; 230;
   232; 234; 237; 239; 241; 243; 245; 247; 250; 252; 254]);
   (88, [10; 28; 39; 48; 55; 62; 67; 73; 78; 82; 87; 91; 95; 99; 103; 107; 110; 114; 117; 121; 124; 127; 130; 133; 136; 139; 142; 145; 148; 151; 153; 156;
   159; 162; 164; 167; 169; 172; 175; 177; 180; 182; 185; 187; 189; 192; 194; 197; 199; 201; 204; 206; 208; 211; 213; 215; 218; 220; 222; 224; 227; 229;
   231; 233; 236; 238; 240; 242; 244; 246; 249; 251; 253; 255]);
   (89, [13; 30; 41; 49; 56; 63; 68; 74; 79; 83; 88; 92; 96; 100; 104; 108; 111; 115; 118; 122; 125; 128; 131; 134; 137; 140; 143; 146; 149; 152; 154; 157;
   160; 163; 165; 168; 171; 173; 176; 178; 181; 183; 186; 188; 191; 193; 195; 198; 200; 203; 205; 207; 210; 212; 214; 217; 219; 221; 223; 226; 228; 230;
   232; 235; 237; 239; 241; 243; 246; 248; 250; 252; 254]);
   (90, [16; 32; 42; 50; 57; 64; 70; 75; 80; 85; 89; 93; 97; 101; 105; 109; 112; 116; 119; 123; 126; 129; 132; 135; 138; 141; 144; 147; 150; 153; 156; 158;
   161; 164; 166; 169; 172; 174; 177; 179; 182; 184; 187; 189; 192; 194; 197; 199; 201; 204; 206; 208; 211; 213; 215; 218; 220; 222; 225; 227; 229; 231;
   234; 236; 238; 240; 242; 245; 247; 249; 251; 253; 255]);
   (91, [19; 33; 44; 52; 59; 65; 71; 76; 81; 86; 90; 94; 98; 102; 106; 110; 113; 117; 120; 124; 127; 130; 133; 136; 139; 142; 145; 148; 151; 154; 157; 159;
   162; 165; 167; 170; 173; 175; 178; 180; 183; 185; 188; 190; 193; 195; 198; 200; 203; 205; 207; 210; 212; 214; 217; 219; 221; 223; 226; 228; 230; 233;
   235; 237; 239; 241; 244; 246; 248; 250; 252; 254]);
   (92, [22; 35; 45; 53; 60; 66; 72; 77; 82; 87; 91; 95; 99; 103; 107; 111; 114; 118; 121; 125; 128; 131; 134; 137; 140; 143; 146; 149; 152; 155; 158; 160;
   163; 166; 169; 171; 174; 176; 179; 182; 184; 187; 189; 192; 194; 196; 199; 201; 204; 206; 208; 211; 213; 215; 218; 220; 222; 225; 227; 229; 231; 234;
   236; 238; 240; 243; 245; 247; 249; 251; 254]);
   (93, [24; 37; 46; 54; 61; 67; 73; 78; 83; 88; 92; 96; 100; 104; 108; 112; 115; 119; 122; 126; 129; 132; 135; 138; 141; 144; 147; 150; 153; 156; 159; 162;
   164; 167; 170; 172; 175; 178; 180; 183; 185; 188; 190; 193; 195; 198; 200; 202; 205; 207; 210; 212; 214; 217; 219; 221; 224; 226; 228; 230; 233; 235;
   237; 239; 242; 244; 246; 248; 250; 253; 255]);
   (93, [4; 26; 38; 48; 56; 62; 68; 74; 79; 84; 89; 93; 97; 101; 105; 109; 113; 116; 120; 123; 127; 130; 133; 136; 139; 142; 145; 148; 151; 154; 157; 160;
   163; 165; 168; 171; 173; 176; 179; 181; 184; 186; 189; 191; 194; 196; 199; 201; 204; 206; 208; 211; 213; 215; 218; 220; 222; 225; 227; 229; 232; 234;
   236; 238; 241; 243; 245; 247; 249; 252; 254]);
   (94, [8; 28; 40; 49; 57; 63; 70; 75; 80; 85; 90; 94; 98; 103; 106; 110; 114; 117; 121; 124; 128; 131; 134; 137; 140; 144; 147; 149; 152; 155; 158; 161;
   164; 166; 169; 172; 174; 177; 180; 182; 185; 187; 190; 192; 195; 197; 200; 202; 205; 207; 209; 212; 214; 217; 219; 221; 224; 226; 228; 230; 233; 235;
   237; 240; 242; 244; 246; 248; 251; 253; 255]);
   (95, [12; 30; 42; 51; 58; 65; 71; 76; 81; 86; 91; 95; 99; 104; 107; 111; 115; 119; 122; 125; 129; 132; 135; 138; 142; 145; 148; 151; 153; 156; 159; 162;
   165; 167; 170; 173; 176; 178; 181; 183; 186; 189; 191; 194; 196; 199; 201; 203; 206; 208; 211; 213; 215; 218; 220; 222; 225; 227; 229; 232; 234; 236;
   238; 241; 243; 245; 247; 250; 252; 254]);
   (96, [15; 32; 43; 52; 59; 66; 72; 77; 82; 87; 92; 96; 101; 105; 108; 112; 116; 120; 123; 126; 130; 133; 136; 139; 143; 146; 149; 152; 154; 157; 160; 163;
   166; 169; 171; 174; 177; 179; 182; 184; 187; 190; 192; 195; 197; 200; 202; 205; 207; 209; 212; 214; 217; 219; 221; 224; 226; 228; 231; 233; 235; 237;
   240; 242; 244; 246; 249; 251; 253; 255]);
   (97, [19; 34; 45; 53; 61; 67; 73; 78; 84; 88; 93; 97; 102; 106; 110; 113; 117; 121; 124; 128; 131; 134; 137; 140; 144; 147; 150; 153; 156; 158; 161; 164;
   167; 170; 172; 175; 178; 180; 183; 186; 188; 191; 193; 196; 198; 201; 203; 206; 208; 211; 213; 215; 218; 220; 222; 225; 227; 229; 232; 234; 236; 239;
   241; 243; 245; 248; 250; 252; 254]);
   (98, [21; 36; 46; 55; 62; 68; 74; 80; 85; 89; 94; 98; 103; 107; 111; 114; 118; 122; 125; 129; 132; 135; 138; 142; 145; 148; 151; 154; 157; 159; 162; 165;
   168; 171; 173; 176; 179; 181; 184; 187; 189; 192; 194; 197; 199; 202; 204; 207; 209; 212; 214; 216; 219; 221; 224; 226; 228; 231; 233; 235; 237; 240;
   242; 244; 247; 249; 251; 253; 255]);
   (99, [24; 38; 48; 56; 63; 69; 75; 81; 86; 90; 95; 99; 104; 108; 112; 115; 119; 123; 126; 130; 133; 136; 139; 143; 146; 149; 152; 155; 158; 161; 163; 166;
   169; 172; 175; 177; 180; 183; 185; 188; 190; 193; 195; 198; 201; 203; 205; 208; 210; 213; 215; 218; 220; 222; 225; 227; 229; 232; 234; 236; 239; 241;
   243; 245; 248; 250; 252; 254]);
   (99, [2; 26; 39; 49; 57; 64; 71; 76; 82; 87; 92; 96; 100; 105; 109; 113; 116; 120; 124; 127; 131; 134; 137; 140; 144; 147; 150; 153; 156; 159; 162; 164;
   167; 170; 173; 176; 178; 181; 184; 186; 189; 191; 194; 197; 199; 202; 204; 207; 209; 211; 214; 216; 219; 221; 224; 226; 228; 231; 233; 235; 238; 240;
   242; 244; 247; 249; 251; 253]);
   (100, [6; 28; 41; 50; 58; 65; 72; 77; 83; 88; 93; 97; 102; 106; 110; 114; 117; 121; 125; 128; 132; 135; 138; 141; 145; 148; 151; 154; 157; 160; 163; 166;
   168; 171; 174; 177; 179; 182; 185; 187; 190; 193; 195; 198; 200; 203; 205; 208; 210; 213; 215; 217; 220; 222; 225; 227; 229; 232; 234; 236; 239; 241;
   243; 246; 248; 250; 252; 255]);
   (101, [10; 31; 43; 52; 60; 67; 73; 79; 84; 89; 94; 98; 103; 107; 111; 115; 118; 122; 126; 129; 133; 136; 139; 143; 146; 149; 152; 155; 158; 161; 164; 167;
   169; 172; 175; 178; 180; 183; 186; 188; 191; 194; 196; 199; 201; 204; 206; 209; 211; 214; 216; 219; 221; 223; 226; 228; 231; 233; 235; 238; 240; 242;
   244; 247; 249; 251; 254]);
   (102, [14; 33; 44; 53; 61; 68; 74; 80; 85; 90; 95; 99; 104; 108; 112; 116; 119; 123; 127; 130; 134; 137; 140; 144; 147; 150; 153; 156; 159; 162; 165; 168;
   171; 173; 176; 179; 182; 184; 187; 190; 192; 195; 197; 200; 202; 205; 207; 210; 212; 215; 217; 220; 222; 225; 227; 229; 232; 234; 236; 239; 241; 243;
   246; 248; 250; 252; 255]);
   (103, [18; 34; 46; 55; 62; 69; 75; 81; 86; 91; 96; 100; 105; 109; 113; 117; 121; 124; 128; 131; 135; 138; 141; 145; 148; 151; 154; 157; 160; 163; 166; 169;
   172; 174; 177; 180; 183; 185; 188; 191; 193; 196; 198; 201; 204; 206; 209; 211; 214; 216; 218; 221; 223; 226; 228; 230; 233; 235; 238; 240; 242; 244;
   247; 249; 251; 254]);
   (104, [21; 36; 47; 56; 63; 70; 76; 82; 87; 92; 97; 101; 106; 110; 114; 118; 122; 125; 129; 132; 136; 139; 142; 146; 149; 152; 155; 158; 161; 164; 167; 170;
   173; 175; 178; 181; 184; 186; 189; 192; 194; 197; 200; 202; 205; 207; 210; 212; 215; 217; 220; 222; 224; 227; 229; 232; 234; 236; 239; 241; 243; 246;
   248; 250; 253; 255]);
   (105, [23; 38; 49; 57; 65; 71; 77; 83; 88; 93; 98; 102; 107; 111; 115; 119; 123; 126; 130; 133; 137; 140; 143; 147; 150; 153; 156; 159; 162; 165; 168; 171;
   174; 177; 179; 182; 185; 187; 190; 193; 195; 198; 201; 203; 206; 208; 211; 213; 216; 218; 221; 223; 226; 228; 230; 233; 235; 237; 240; 242; 245; 247;
   249; 251; 254]);
   (106, [26; 40; 50; 59; 66; 73; 79; 84; 89; 94; 99; 103; 108; 112; 116; 120; 124; 127; 131; 134; 138; 141; 144; 148; 151; 154; 157; 160; 163; 166; 169; 172;
   175; 178; 180; 183; 186; 189; 191; 194; 197; 199; 202; 204; 207; 209; 212; 214; 217; 219; 222; 224; 227; 229; 232; 234; 236; 239; 241; 243; 246; 248;
   250; 253; 255]);
   (106, [3; 28; 42; 52; 60; 67; 74; 80; 85; 90; 95; 100; 104; 109; 113; 117; 121; 125; 128; 132; 135; 139; 142; 146; 149; 152; 155; 158; 161; 164; 167; 170;
   173; 176; 179; 181; 184; 187; 190; 192; 195; 198; 200; 203; 205; 208; 211; 213; 216; 218; 221; 223; 225; 228; 230; 233; 235; 237; 240; 242; 245; 247;
   249; 251; 254]);
   (107, [8; 31; 43; 53; 61; 68; 75; 81; 86; 91; 96; 101; 106; 110; 114; 118; 122; 126; 129; 133; 136; 140; 143; 147; 150; 153; 156; 159; 162; 165; 168; 171;
   174; 177; 180; 183; 185; 188; 191; 193; 196; 199; 201; 204; 207; 209; 212; 214; 217; 219; 222; 224; 227; 229; 231; 234; 236; 239; 241; 243; 246; 248;
   250; 253; 255]);
   (108, [13; 33; 45; 55; 63; 70; 76; 82; 87; 93; 97; 102; 107; 111; 115; 119; 123; 127; 130; 134; 137; 141; 144; 148; 151; 154; 157; 160; 163; 166; 169; 172;
   175; 178; 181; 184; 186; 189; 192; 195; 197; 200; 202; 205; 208; 210; 213; 215; 218; 220; 223; 225; 228; 230; 233; 235; 237; 240; 242; 244; 247; 249;
   251; 254]);
   (109, [17; 35; 47; 56; 64; 71; 77; 83; 89; 94; 99; 103; 108; 112; 116; 120; 124; 128; 131; 135; 138; 142; 145; 149; 152; 155; 158; 161; 164; 167; 170; 173;
   176; 179; 182; 185; 187; 190; 193; 196; 198; 201; 204; 206; 209; 211; 214; 216; 219; 221; 224; 226; 229; 231; 234; 236; 238; 241; 243; 246; 248; 250;
   253; 255]);
   (110, [20; 37; 48; 57; 65; 72; 78; 84; 90; 95; 100; 104; 109; 113; 117; 121; 125; 129; 132; 136; 140; 143; 146; 150; 153; 156; 159; 162; 165; 168; 171; 174;
   177; 180; 183; 186; 188; 191; 194; 197; 199; 202; 205; 207; 210; 212; 215; 217; 220; 223; 225; 227; 230; 232; 235; 237; 240; 242; 244; 247; 249; 251;
   254]);
   (111, [23; 39; 50; 59; 66; 73; 80; 85; 91; 96; 101; 105; 110; 114; 118; 122; 126; 130; 133; 137; 141; 144; 147; 151; 154; 157; 160; 163; 166; 169; 172; 175;
   178; 181; 184; 187; 190; 192; 195; 198; 200; 203; 206; 208; 211; 214; 216; 219; 221; 224; 226; 229; 231; 234; 236; 238; 241; 243; 246; 248; 250; 253;
   255]);
   (112, [26; 41; 51; 60; 68; 74; 81; 86; 92; 97; 102; 106; 111; 115; 119; 123; 127; 131; 134; 138; 142; 145; 148; 152; 155; 158; 161; 164; 167; 170; 173; 176;
   179; 182; 185; 188; 191; 193; 196; 199; 202; 204; 207; 209; 212; 215; 217; 220; 222; 225; 227; 230; 232; 235; 237; 240; 242; 244; 247; 249; 251; 254]);
   (112, [1; 28; 42; 53; 61; 69; 76; 82; 88; 93; 98; 103; 107; 112; 116; 120; 124; 128; 132; 135; 139; 143; 146; 149; 153; 156; 159; 162; 165; 169; 172; 175;
   177; 180; 183; 186; 189; 192; 194; 197; 200; 203; 205; 208; 211; 213; 216; 218; 221; 223; 226; 228; 231; 233; 236; 238; 241; 243; 245; 248; 250; 253;
   255]);
   (113, [5; 31; 44; 54; 63; 70; 77; 83; 89; 94; 99; 104; 108; 113; 117; 121; 125; 129; 133; 137; 140; 144; 147; 150; 154; 157; 160; 163; 166; 170; 173; 176;
   179; 181; 184; 187; 190; 193; 196; 198; 201; 204; 206; 209; 212; 214; 217; 219; 222; 224; 227; 229; 232; 234; 237; 239; 242; 244; 247; 249; 251; 254]);
   (114, [11; 33; 46; 56; 64; 71; 78; 84; 90; 95; 100; 105; 109; 114; 118; 122; 126; 130; 134; 138; 141; 145; 148; 151; 155; 158; 161; 164; 168; 171; 174; 177;
   180; 182; 185; 188; 191; 194; 197; 199; 202; 205; 207; 210; 213; 215; 218; 220; 223; 226; 228; 231; 233; 236; 238; 240; 243; 245; 248; 250; 253; 255]);
   (115, [15; 35; 47; 57; 65; 73; 79; 85; 91; 96; 101; 106; 111; 115; 119; 123; 127; 131; 135; 139; 142; 146; 149; 153; 156; 159; 162; 165; 169; 172; 175; 178;
   181; 184; 186; 189; 192; 195; 198; 200; 203; 206; 209; 211; 214; 216; 219; 222; 224; 227; 229; 232; 234; 237; 239; 242; 244; 246; 249; 251; 254]);
   (116, [19; 37; 49; 59; 67; 74; 80; 86; 92; 97; 102; 107; 112; 116; 120; 124; 128; 132; 136; 140; 143; 147; 150; 154; 157; 160; 163; 167; 170; 173; 176; 179;
   182; 185; 188; 190; 193; 196; 199; 202; 204; 207; 210; 212; 215; 218; 220; 223; 225; 228; 230; 233; 235; 238; 240; 243; 245; 248; 250; 252; 255]);
   (117, [22; 39; 51; 60; 68; 75; 82; 88; 93; 98; 103; 108; 113; 117; 121; 125; 129; 133; 137; 141; 144; 148; 151; 155; 158; 161; 164; 168; 171; 174; 177; 180;
   183; 186; 189; 191; 194; 197; 200; 203; 205; 208; 211; 213; 216; 219; 221; 224; 226; 229; 231; 234; 236; 239; 241; 244; 246; 249; 251; 254]);
   (118, [25; 41; 52; 61; 69; 76; 83; 89; 94; 99; 104; 109; 114; 118; 122; 126; 130; 134; 138; 142; 145; 149; 152; 156; 159; 162; 165; 169; 172; 175; 178; 181;
   184; 187; 190; 192; 195; 198; 201; 204; 206; 209; 212; 214; 217; 220; 222; 225; 227; 230; 233; 235; 238; 240; 243; 245; 247; 250; 252; 255]);
   (119, [28; 43; 54; 63; 71; 78; 84; 90; 95; 101; 105; 110; 115; 119; 123; 127; 131; 135; 139; 143; 146; 150; 153; 157; 160; 163; 166; 170; 173; 176; 179;
   182; 185; 188; 191; 194; 196; 199; 202; 205; 207; 210; 213; 216; 218; 221; 223; 226; 229; 231; 234; 236; 239; 241; 244; 246; 249; 251; 253]);
   (119, [2; 30; 45; 55; 64; 72; 79; 85; 91; 96; 102; 107; 111; 116; 120; 124; 128; 132; 136; 140; 144; 147; 151; 154; 158; 161; 164; 167; 171; 174; 177; 180;
   183; 186; 189; 192; 195; 197; 200; 203; 206; 209; 211; 214; 217; 219; 222; 225; 227; 230; 232; 235; 237; 240; 242; 245; 247; 250; 252; 255]);
   (120, [8; 33; 46; 57; 65; 73; 80; 86; 92; 98; 103; 108; 112; 117; 121; 125; 129; 133; 137; 141; 145; 148; 152; 155; 159; 162; 165; 169; 172; 175; 178; 181;
   184; 187; 190; 193; 196; 199; 201; 204; 207; 210; 212; 215; 218; 220; 223; 226; 228; 231; 233; 236; 238; 241; 243; 246; 248; 251; 253]);
   (121, [13; 35; 48; 58; 67; 74; 81; 87; 93; 99; 104; 109; 113; 118; 122; 126; 131; 134; 138; 142; 146; 149; 153; 156; 160; 163; 166; 170; 173; 176; 179; 182;
   185; 188; 191; 194; 197; 200; 202; 205; 208; 211; 213; 216; 219; 221; 224; 227; 229; 232; 234; 237; 240; 242; 245; 247; 249; 252; 254]);
   (122, [17; 37; 50; 60; 68; 76; 82; 89; 94; 100; 105; 110; 114; 119; 123; 127; 132; 135; 139; 143; 147; 150; 154; 157; 161; 164; 167; 171; 174; 177; 180;
   183; 186; 189; 192; 195; 198; 201; 203; 206; 209; 212; 215; 217; 220; 223; 225; 228; 230; 233; 236; 238; 241; 243; 246; 248; 251; 253]);
   (123, [21; 39; 51; 61; 69; 77; 84; 90; 95; 101; 106; 111; 115; 120; 124; 129; 133; 137; 140; 144; 148; 151; 155; 158; 162; 165; 168; 172; 175; 178; 181;
   184; 187; 190; 193; 196; 199; 202; 205; 207; 210; 213; 216; 218; 221; 224; 226; 229; 231; 234; 237; 239; 242; 244; 247; 249; 252; 254]);
   (124, [24; 41; 53; 63; 71; 78; 85; 91; 97; 102; 107; 112; 117; 121; 125; 130; 134; 138; 141; 145; 149; 152; 156; 159; 163; 166; 169; 173; 176; 179; 182;
   185; 188; 191; 194; 197; 200; 203; 206; 208; 211; 214; 217; 219; 222; 225; 227; 230; 233; 235; 238; 240; 243; 245; 248; 250; 253; 255]);
   (125, [27; 43; 55; 64; 72; 79; 86; 92; 98; 103; 108; 113; 118; 122; 126; 131; 135; 139; 142; 146; 150; 153; 157; 160; 164; 167; 170; 174; 177; 180; 183;
   186; 189; 192; 195; 198; 201; 204; 207; 209; 212; 215; 218; 220; 223; 226; 228; 231; 234; 236; 239; 241; 244; 246; 249; 252; 254]);
   (126, [30; 45; 56; 65; 73; 81; 87; 93; 99; 104; 109; 114; 119; 123; 127; 132; 136; 140; 143; 147; 151; 155; 158; 161; 165; 168; 172; 175; 178; 181; 184;
   187; 190; 193; 196; 199; 202; 205; 208; 211; 213; 216; 219; 222; 224; 227; 230; 232; 235; 237; 240; 243; 245; 248; 250; 253; 255]);
   (126, [5; 33; 47; 58; 67; 75; 82; 88; 94; 100; 105; 110; 115; 120; 124; 128; 133; 137; 141; 144; 148; 152; 156; 159; 163; 166; 169; 173; 176; 179; 182; 185;
   188; 191; 194; 197; 200; 203; 206; 209; 212; 214; 217; 220; 223; 225; 228; 231; 233; 236; 238; 241; 244; 246; 249; 251; 254]);
   (127, [10; 35; 49; 59; 68; 76; 83; 89; 95; 101; 106; 111; 116; 121; 125; 130; 134; 138; 142; 146; 149; 153; 157; 160; 164; 167; 170; 174; 177; 180; 183;
   186; 189; 192; 195; 198; 201; 204; 207; 210; 213; 215; 218; 221; 224; 226; 229; 232; 234; 237; 240; 242; 245; 247; 250; 252; 255]);
   (128, [16; 37; 51; 61; 70; 77; 84; 91; 97; 102; 107; 112; 117; 122; 126; 131; 135; 139; 143; 147; 150; 154; 158; 161; 165; 168; 171; 175; 178; 181; 184;
   187; 190; 193; 196; 199; 202; 205; 208; 211; 214; 217; 219; 222; 225; 227; 230; 233; 235; 238; 241; 243; 246; 248; 251; 253]);
   (129, [20; 39; 52; 62; 71; 79; 85; 92; 98; 103; 108; 113; 118; 123; 127; 132; 136; 140; 144; 148; 151; 155; 159; 162; 166; 169; 172; 176; 179; 182; 185;
   188; 191; 194; 197; 200; 203; 206; 209; 212; 215; 218; 220; 223; 226; 229; 231; 234; 237; 239; 242; 244; 247; 250; 252; 255]);
   (130, [23; 42; 54; 64; 72; 80; 87; 93; 99; 104; 110; 115; 119; 124; 128; 133; 137; 141; 145; 149; 152; 156; 160; 163; 167; 170; 173; 177; 180; 183; 186;
   189; 192; 196; 199; 201; 204; 207; 210; 213; 216; 219; 221; 224; 227; 230; 232; 235; 238; 240; 243; 245; 248; 251; 253]);
   (131, [27; 44; 56; 65; 74; 81; 88; 94; 100; 105; 111; 116; 120; 125; 129; 134; 138; 142; 146; 150; 153; 157; 161; 164; 168; 171; 174; 178; 181; 184; 187;
   190; 194; 197; 200; 203; 205; 208; 211; 214; 217; 220; 223; 225; 228; 231; 233; 236; 239; 241; 244; 247; 249; 252; 254]);
   (132, [29; 46; 57; 67; 75; 82; 89; 95; 101; 106; 112; 117; 121; 126; 130; 135; 139; 143; 147; 151; 154; 158; 162; 165; 169; 172; 175; 179; 182; 185; 188;
   191; 195; 198; 201; 204; 207; 209; 212; 215; 218; 221; 224; 226; 229; 232; 234; 237; 240; 242; 245; 248; 250; 253; 255]);
   (132, [1; 32; 47; 59; 68; 76; 84; 90; 96; 102; 108; 113; 118; 122; 127; 131; 136; 140; 144; 148; 152; 155; 159; 163; 166; 170; 173; 176; 180; 183; 186; 189;
   193; 196; 199; 202; 205; 208; 210; 213; 216; 219; 222; 225; 227; 230; 233; 236; 238; 241; 244; 246; 249; 251; 254]);
   (133, [7; 35; 49; 60; 70; 78; 85; 91; 98; 103; 109; 114; 119; 124; 128; 133; 137; 141; 145; 149; 153; 156; 160; 164; 167; 171; 174; 178; 181; 184; 187; 190;
   194; 197; 200; 203; 206; 209; 212; 214; 217; 220; 223; 226; 228; 231; 234; 237; 239; 242; 245; 247; 250; 252; 255]);
   (134, [13; 37; 51; 62; 71; 79; 86; 93; 99; 104; 110; 115; 120; 125; 129; 134; 138; 142; 146; 150; 154; 158; 161; 165; 168; 172; 175; 179; 182; 185; 188;
   191; 195; 198; 201; 204; 207; 210; 213; 216; 218; 221; 224; 227; 230; 232; 235; 238; 240; 243; 246; 248; 251; 254]);
   (135, [18; 39; 53; 63; 72; 80; 87; 94; 100; 106; 111; 116; 121; 126; 130; 135; 139; 143; 147; 151; 155; 159; 162; 166; 169; 173; 176; 180; 183; 186; 189;
   193; 196; 199; 202; 205; 208; 211; 214; 217; 219; 222; 225; 228; 231; 233; 236; 239; 242; 244; 247; 249; 252; 255]);
   (136, [22; 42; 55; 65; 74; 81; 88; 95; 101; 107; 112; 117; 122; 127; 131; 136; 140; 144; 148; 152; 156; 160; 163; 167; 170; 174; 177; 181; 184; 187; 190;
   194; 197; 200; 203; 206; 209; 212; 215; 218; 220; 223; 226; 229; 232; 234; 237; 240; 243; 245; 248; 251; 253]);
   (137, [26; 44; 56; 66; 75; 83; 90; 96; 102; 108; 113; 118; 123; 128; 132; 137; 141; 145; 149; 153; 157; 161; 164; 168; 171; 175; 178; 182; 185; 188; 191;
   195; 198; 201; 204; 207; 210; 213; 216; 219; 222; 224; 227; 230; 233; 236; 238; 241; 244; 246; 249; 252; 254]);
   (138, [29; 46; 58; 68; 76; 84; 91; 97; 103; 109; 114; 119; 124; 129; 133; 138; 142; 146; 150; 154; 158; 162; 165; 169; 172; 176; 179; 183; 186; 189; 192;
   196; 199; 202; 205; 208; 211; 214; 217; 220; 223; 225; 228; 231; 234; 237; 239; 242; 245; 247; 250; 253; 255]);
   (139, [32; 48; 60; 69; 78; 85; 92; 98; 104; 110; 115; 120; 125; 130; 134; 139; 143; 147; 151; 155; 159; 163; 166; 170; 173; 177; 180; 184; 187; 190; 193;
   197; 200; 203; 206; 209; 212; 215; 218; 221; 224; 227; 229; 232; 235; 238; 240; 243; 246; 249; 251; 254]);
   (139, [4; 34; 50; 61; 71; 79; 86; 93; 100; 105; 111; 116; 121; 126; 131; 135; 140; 144; 148; 152; 156; 160; 164; 167; 171; 174; 178; 181; 185; 188; 191;
   195; 198; 201; 204; 207; 210; 213; 216; 219; 222; 225; 228; 230; 233; 236; 239; 242; 244; 247; 250; 252; 255]);
   (140, [10; 37; 52; 63; 72; 80; 88; 94; 101; 107; 112; 117; 122; 127; 132; 136; 141; 145; 149; 153; 157; 161; 165; 168; 172; 176; 179; 182; 186; 189; 192;
   196; 199; 202; 205; 208; 211; 214; 217; 220; 223; 226; 229; 231; 234; 237; 240; 243; 245; 248; 251; 253]);
   (141, [16; 39; 53; 64; 74; 82; 89; 96; 102; 108; 113; 119; 124; 128; 133; 138; 142; 146; 150; 154; 158; 162; 166; 169; 173; 177; 180; 183; 187; 190; 193;
   197; 200; 203; 206; 209; 212; 215; 218; 221; 224; 227; 230; 233; 235; 238; 241; 244; 246; 249; 252; 254]);
   (142, [20; 42; 55; 66; 75; 83; 90; 97; 103; 109; 114; 120; 125; 129; 134; 139; 143; 147; 151; 155; 159; 163; 167; 170; 174; 178; 181; 184; 188; 191; 194;
   198; 201; 204; 207; 210; 213; 216; 219; 222; 225; 228; 231; 234; 236; 239; 242; 245; 247; 250; 253]);
   (143, [24; 44; 57; 67; 76; 84; 91; 98; 104; 110; 115; 121; 126; 131; 135; 140; 144; 148; 152; 156; 160; 164; 168; 171; 175; 179; 182; 185; 189; 192; 195;
   199; 202; 205; 208; 211; 214; 217; 220; 223; 226; 229; 232; 235; 237; 240; 243; 246; 249; 251; 254]);
   (144, [28; 46; 59; 69; 78; 86; 93; 99; 105; 111; 117; 122; 127; 132; 136; 141; 145; 149; 153; 157; 161; 165; 169; 172; 176; 180; 183; 187; 190; 193; 196;
   200; 203; 206; 209; 212; 215; 218; 221; 224; 227; 230; 233; 236; 239; 241; 244; 247; 250; 252; 255]);
   (145, [31; 48; 60; 70; 79; 87; 94; 100; 107; 112; 118; 123; 128; 133; 137; 142; 146; 150; 154; 158; 162; 166; 170; 174; 177; 181; 184; 188; 191; 194; 198;
   201; 204; 207; 210; 213; 216; 219; 222; 225; 228; 231; 234; 237; 240; 242; 245; 248; 251; 253]);
   (146, [34; 50; 62; 72; 80; 88; 95; 102; 108; 113; 119; 124; 129; 134; 138; 143; 147; 151; 155; 159; 163; 167; 171; 175; 178; 182; 185; 189; 192; 195; 199;
   202; 205; 208; 211; 214; 217; 220; 223; 226; 229; 232; 235; 238; 241; 243; 246; 249; 252; 254]);
   (146, [6; 37; 52; 64; 73; 82; 89; 96; 103; 109; 114; 120; 125; 130; 135; 139; 144; 148; 152; 156; 160; 164; 168; 172; 176; 179; 183; 186; 190; 193; 196;
   200; 203; 206; 209; 212; 215; 218; 221; 224; 227; 230; 233; 236; 239; 242; 245; 247; 250; 253]);
   (147, [13; 39; 54; 65; 75; 83; 91; 98; 104; 110; 116; 121; 126; 131; 136; 140; 145; 149; 153; 157; 161; 165; 169; 173; 177; 180; 184; 187; 191; 194; 197;
   201; 204; 207; 210; 213; 216; 219; 222; 225; 228; 231; 234; 237; 240; 243; 246; 248; 251; 254]);
   (148, [18; 42; 56; 67; 76; 84; 92; 99; 105; 111; 117; 122; 127; 132; 137; 141; 146; 150; 154; 159; 162; 166; 170; 174; 178; 181; 185; 188; 192; 195; 198;
   202; 205; 208; 211; 214; 217; 221; 224; 227; 229; 232; 235; 238; 241; 244; 247; 249; 252; 255]);
   (149, [23; 44; 58; 68; 78; 86; 93; 100; 106; 112; 118; 123; 128; 133; 138; 143; 147; 151; 155; 160; 164; 167; 171; 175; 179; 182; 186; 189; 193; 196; 199;
   203; 206; 209; 212; 215; 219; 222; 225; 228; 231; 233; 236; 239; 242; 245; 248; 251; 253]);
   (150, [27; 46; 59; 70; 79; 87; 94; 101; 107; 113; 119; 124; 129; 134; 139; 144; 148; 152; 156; 161; 165; 168; 172; 176; 180; 183; 187; 190; 194; 197; 200;
   204; 207; 210; 213; 216; 220; 223; 226; 229; 232; 235; 237; 240; 243; 246; 249; 252; 254]);
   (151, [30; 48; 61; 71; 80; 88; 96; 102; 109; 114; 120; 125; 130; 135; 140; 145; 149; 153; 158; 162; 166; 169; 173; 177; 181; 184; 188; 191; 195; 198; 201;
   205; 208; 211; 214; 217; 221; 224; 227; 230; 233; 236; 238; 241; 244; 247; 250; 253; 255]);
   (152, [33; 50; 63; 73; 82; 90; 97; 104; 110; 116; 121; 126; 132; 136; 141; 146; 150; 154; 159; 163; 167; 171; 174; 178; 182; 185; 189; 192; 196; 199; 203;
   206; 209; 212; 215; 219; 222; 225; 228; 231; 234; 237; 240; 242; 245; 248; 251; 254]);
   (152, [2; 36; 52; 64; 74; 83; 91; 98; 105; 111; 117; 122; 128; 133; 137; 142; 147; 151; 155; 160; 164; 168; 172; 175; 179; 183; 186; 190; 193; 197; 200;
   204; 207; 210; 213; 216; 220; 223; 226; 229; 232; 235; 238; 241; 244; 246; 249; 252; 255]);
   (153, [9; 39; 54; 66; 76; 85; 92; 99; 106; 112; 118; 123; 129; 134; 139; 143; 148; 152; 156; 161; 165; 169; 173; 176; 180; 184; 187; 191; 194; 198; 201;
   205; 208; 211; 214; 217; 221; 224; 227; 230; 233; 236; 239; 242; 245; 247; 250; 253]);
   (154, [16; 41; 56; 68; 77; 86; 94; 101; 107; 113; 119; 124; 130; 135; 140; 144; 149; 153; 157; 162; 166; 170; 174; 177; 181; 185; 188; 192; 195; 199; 202;
   206; 209; 212; 215; 219; 222; 225; 228; 231; 234; 237; 240; 243; 246; 248; 251; 254]);
   (155, [21; 44; 58; 69; 79; 87; 95; 102; 108; 114; 120; 126; 131; 136; 141; 145; 150; 154; 159; 163; 167; 171; 175; 178; 182; 186; 189; 193; 196; 200; 203;
   207; 210; 213; 216; 220; 223; 226; 229; 232; 235; 238; 241; 244; 247; 250; 252; 255]);
   (156, [25; 46; 60; 71; 80; 89; 96; 103; 109; 116; 121; 127; 132; 137; 142; 146; 151; 155; 160; 164; 168; 172; 176; 179; 183; 187; 190; 194; 198; 201; 204;
   208; 211; 214; 217; 221; 224; 227; 230; 233; 236; 239; 242; 245; 248; 251; 253]);
   (157, [29; 48; 62; 72; 82; 90; 97; 104; 111; 117; 122; 128; 133; 138; 143; 147; 152; 156; 161; 165; 169; 173; 177; 180; 184; 188; 191; 195; 199; 202; 205;
   209; 212; 215; 218; 222; 225; 228; 231; 234; 237; 240; 243; 246; 249; 252; 255]);
   (158, [32; 50; 63; 74; 83; 91; 99; 105; 112; 118; 123; 129; 134; 139; 144; 149; 153; 157; 162; 166; 170; 174; 178; 182; 185; 189; 193; 196; 200; 203; 206;
   210; 213; 216; 220; 223; 226; 229; 232; 235; 238; 241; 244; 247; 250; 253]);
   (159, [35; 53; 65; 76; 85; 93; 100; 107; 113; 119; 125; 130; 135; 140; 145; 150; 154; 158; 163; 167; 171; 175; 179; 183; 186; 190; 194; 197; 201; 204; 207;
   211; 214; 217; 221; 224; 227; 230; 233; 236; 239; 242; 245; 248; 251; 254]);
   (159, [5; 38; 55; 67; 77; 86; 94; 101; 108; 114; 120; 126; 131; 136; 141; 146; 151; 155; 159; 164; 168; 172; 176; 180; 184; 187; 191; 195; 198; 202; 205;
   208; 212; 215; 218; 222; 225; 228; 231; 234; 237; 240; 243; 246; 249; 252; 255]);
   (160, [13; 41; 57; 69; 79; 87; 95; 102; 109; 115; 121; 127; 132; 137; 142; 147; 152; 156; 161; 165; 169; 173; 177; 181; 185; 188; 192; 196; 199; 203; 206;
   209; 213; 216; 219; 223; 226; 229; 232; 235; 238; 241; 244; 247; 250; 253]);
   (161, [19; 43; 58; 70; 80; 89; 96; 104; 110; 116; 122; 128; 133; 138; 143; 148; 153; 157; 162; 166; 170; 174; 178; 182; 186; 189; 193; 197; 200; 204; 207;
   211; 214; 217; 220; 224; 227; 230; 233; 236; 239; 242; 245; 248; 251; 254]);
   (162, [23; 46; 60; 72; 81; 90; 98; 105; 111; 118; 123; 129; 134; 139; 144; 149; 154; 158; 163; 167; 171; 175; 179; 183; 187; 190; 194; 198; 201; 205; 208;
   212; 215; 218; 221; 225; 228; 231; 234; 237; 240; 243; 246; 249; 252; 255]);
   (163, [27; 48; 62; 73; 83; 91; 99; 106; 113; 119; 125; 130; 135; 141; 145; 150; 155; 159; 164; 168; 172; 176; 180; 184; 188; 191; 195; 199; 202; 206; 209;
   213; 216; 219; 222; 226; 229; 232; 235; 238; 241; 244; 247; 250; 253]);
   (164, [31; 51; 64; 75; 84; 93; 100; 107; 114; 120; 126; 131; 137; 142; 147; 151; 156; 160; 165; 169; 173; 177; 181; 185; 189; 192; 196; 200; 203; 207; 210;
   214; 217; 220; 224; 227; 230; 233; 236; 239; 242; 245; 248; 251; 254]);
   (165, [34; 53; 66; 77; 86; 94; 102; 108; 115; 121; 127; 132; 138; 143; 148; 152; 157; 161; 166; 170; 174; 178; 182; 186; 190; 193; 197; 201; 204; 208; 211;
   215; 218; 221; 225; 228; 231; 234; 237; 240; 243; 246; 249; 252; 255]);
   (166, [38; 55; 68; 78; 87; 95; 103; 110; 116; 122; 128; 133; 139; 144; 149; 153; 158; 162; 167; 171; 175; 179; 183; 187; 191; 195; 198; 202; 205; 209; 212;
   216; 219; 222; 226; 229; 232; 235; 238; 241; 244; 247; 251; 253]);
   (166, [8; 40; 57; 69; 80; 89; 97; 104; 111; 117; 123; 129; 135; 140; 145; 150; 154; 159; 163; 168; 172; 176; 180; 184; 188; 192; 196; 199; 203; 206; 210;
   213; 217; 220; 223; 227; 230; 233; 236; 239; 242; 246; 249; 252; 255]);
   (167, [16; 43; 59; 71; 81; 90; 98; 105; 112; 118; 124; 130; 136; 141; 146; 151; 156; 160; 165; 169; 173; 177; 181; 185; 189; 193; 197; 200; 204; 207; 211;
   214; 218; 221; 224; 228; 231; 234; 237; 240; 243; 247; 250; 253]);
   (168, [21; 46; 61; 73; 83; 91; 99; 107; 113; 120; 126; 131; 137; 142; 147; 152; 157; 161; 166; 170; 174; 178; 182; 186; 190; 194; 198; 201; 205; 208; 212;
   215; 219; 222; 225; 229; 232; 235; 238; 241; 245; 248; 251; 254]);
   (169, [26; 48; 63; 74; 84; 93; 101; 108; 115; 121; 127; 132; 138; 143; 148; 153; 158; 162; 167; 171; 175; 179; 183; 187; 191; 195; 199; 202; 206; 209; 213;
   216; 220; 223; 226; 230; 233; 236; 239; 242; 246; 249; 252; 255]);
   (170, [30; 50; 65; 76; 86; 94; 102; 109; 116; 122; 128; 134; 139; 144; 149; 154; 159; 163; 168; 172; 176; 180; 184; 188; 192; 196; 200; 203; 207; 210; 214;
   217; 221; 224; 227; 231; 234; 237; 240; 244; 247; 250; 253]);
   (171, [33; 53; 66; 77; 87; 95; 103; 110; 117; 123; 129; 135; 140; 145; 150; 155; 160; 164; 169; 173; 177; 181; 185; 189; 193; 197; 201; 204; 208; 211; 215;
   218; 222; 225; 229; 232; 235; 238; 241; 245; 248; 251; 254]);
   (172, [37; 55; 68; 79; 88; 97; 104; 111; 118; 124; 130; 136; 141; 146; 151; 156; 161; 165; 170; 174; 178; 182; 186; 190; 194; 198; 202; 205; 209; 213; 216;
   219; 223; 226; 230; 233; 236; 239; 242; 246; 249; 252; 255]);
   (172, [3; 40; 57; 70; 81; 90; 98; 106; 113; 119; 125; 131; 137; 142; 147; 152; 157; 162; 166; 171; 175; 179; 183; 187; 191; 195; 199; 203; 206; 210; 214;
   217; 221; 224; 227; 231; 234; 237; 240; 243; 247; 250; 253]);
   (173, [12; 43; 59; 72; 82; 91; 99; 107; 114; 120; 127; 132; 138; 143; 149; 153; 158; 163; 167; 172; 176; 180; 184; 188; 192; 196; 200; 204; 207; 211; 215;
   218; 222; 225; 228; 232; 235; 238; 241; 245; 248; 251; 254]);
   (174, [19; 45; 61; 73; 84; 93; 101; 108; 115; 122; 128; 134; 139; 144; 150; 155; 159; 164; 168; 173; 177; 181; 185; 189; 193; 197; 201; 205; 208; 212; 216;
   219; 223; 226; 229; 233; 236; 239; 242; 246; 249; 252; 255]);
   (175, [24; 48; 63; 75; 85; 94; 102; 109; 116; 123; 129; 135; 140; 146; 151; 156; 160; 165; 170; 174; 178; 182; 186; 191; 194; 198; 202; 206; 209; 213; 217;
   220; 224; 227; 230; 234; 237; 240; 243; 247; 250; 253]);
   (176, [28; 50; 65; 77; 87; 95; 103; 111; 118; 124; 130; 136; 141; 147; 152; 157; 161; 166; 171; 175; 179; 183; 188; 192; 195; 199; 203; 207; 210; 214; 218;
   221; 225; 228; 231; 235; 238; 241; 244; 248; 251; 254]);
   (177, [32; 53; 67; 78; 88; 97; 105; 112; 119; 125; 131; 137; 142; 148; 153; 158; 163; 167; 172; 176; 180; 184; 189; 193; 196; 200; 204; 208; 212; 215; 219;
   222; 226; 229; 232; 236; 239; 242; 246; 249; 252; 255]);
   (178, [36; 55; 69; 80; 90; 98; 106; 113; 120; 126; 132; 138; 144; 149; 154; 159; 164; 168; 173; 177; 181; 186; 190; 194; 198; 201; 205; 209; 213; 216; 220;
   223; 227; 230; 233; 237; 240; 243; 247; 250; 253]);
   (179, [39; 57; 71; 82; 91; 100; 107; 114; 121; 127; 133; 139; 145; 150; 155; 160; 165; 169; 174; 178; 182; 187; 191; 195; 199; 202; 206; 210; 214; 217; 221;
   224; 228; 231; 234; 238; 241; 244; 248; 251; 254]);
   (179, [7; 42; 59; 72; 83; 92; 101; 109; 116; 122; 129; 135; 140; 146; 151; 156; 161; 166; 170; 175; 179; 183; 188; 192; 196; 200; 203; 207; 211; 215; 218;
   222; 225; 229; 232; 236; 239; 242; 245; 249; 252; 255]);
   (180, [15; 45; 61; 74; 85; 94; 102; 110; 117; 124; 130; 136; 141; 147; 152; 157; 162; 167; 171; 176; 180; 184; 189; 193; 197; 201; 204; 208; 212; 216; 219;
   223; 226; 230; 233; 237; 240; 243; 246; 250; 253]);
   (181, [21; 47; 63; 76; 86; 95; 104; 111; 118; 125; 131; 137; 143; 148; 153; 158; 163; 168; 172; 177; 181; 185; 190; 194; 198; 202; 205; 209; 213; 217; 220;
   224; 227; 231; 234; 238; 241; 244; 247; 251; 254]);
   (182, [26; 50; 65; 77; 88; 97; 105; 112; 119; 126; 132; 138; 144; 149; 154; 159; 164; 169; 173; 178; 182; 187; 191; 195; 199; 203; 207; 210; 214; 218; 221;
   225; 228; 232; 235; 239; 242; 245; 249; 252; 255]);
   (183, [31; 52; 67; 79; 89; 98; 106; 114; 121; 127; 133; 139; 145; 150; 155; 160; 165; 170; 175; 179; 183; 188; 192; 196; 200; 204; 208; 211; 215; 219; 222;
   226; 229; 233; 236; 240; 243; 246; 250; 253]);
   (184, [34; 55; 69; 81; 91; 100; 108; 115; 122; 128; 134; 140; 146; 151; 156; 161; 166; 171; 176; 180; 184; 189; 193; 197; 201; 205; 209; 212; 216; 220; 223;
   227; 230; 234; 237; 241; 244; 247; 251; 254]);
   (185, [38; 57; 71; 82; 92; 101; 109; 116; 123; 129; 136; 141; 147; 152; 158; 163; 167; 172; 177; 181; 185; 190; 194; 198; 202; 206; 210; 213; 217; 221; 224;
   228; 231; 235; 238; 242; 245; 248; 252; 255]);
   (185, [1; 41; 59; 73; 84; 94; 102; 110; 117; 124; 131; 137; 143; 148; 153; 159; 164; 168; 173; 178; 182; 186; 191; 195; 199; 203; 207; 211; 214; 218; 222;
   225; 229; 232; 236; 239; 243; 246; 249; 253]);
   (186, [11; 44; 61; 75; 86; 95; 104; 111; 119; 125; 132; 138; 144; 149; 155; 160; 165; 169; 174; 179; 183; 187; 192; 196; 200; 204; 208; 212; 215; 219; 223;
   226; 230; 234; 237; 240; 244; 247; 250; 254]);
   (187, [18; 47; 64; 76; 87; 97; 105; 113; 120; 127; 133; 139; 145; 150; 156; 161; 166; 171; 175; 180; 184; 189; 193; 197; 201; 205; 209; 213; 216; 220; 224;
   227; 231; 235; 238; 241; 245; 248; 251; 255]);
   (188, [24; 50; 66; 78; 89; 98; 106; 114; 121; 128; 134; 140; 146; 151; 157; 162; 167; 172; 176; 181; 185; 190; 194; 198; 202; 206; 210; 214; 218; 221; 225;
   228; 232; 236; 239; 242; 246; 249; 252]);
   (189, [29; 52; 68; 80; 90; 99; 108; 115; 122; 129; 135; 141; 147; 153; 158; 163; 168; 173; 177; 182; 186; 191; 195; 199; 203; 207; 211; 215; 219; 222; 226;
   230; 233; 237; 240; 243; 247; 250; 254]);
   (190, [33; 55; 70; 82; 92; 101; 109; 117; 124; 130; 137; 142; 148; 154; 159; 164; 169; 174; 178; 183; 187; 192; 196; 200; 204; 208; 212; 216; 220; 223; 227;
   231; 234; 238; 241; 245; 248; 251; 255]);
   (191, [37; 57; 71; 83; 93; 102; 110; 118; 125; 131; 138; 144; 149; 155; 160; 165; 170; 175; 179; 184; 188; 193; 197; 201; 205; 209; 213; 217; 221; 224; 228;
   232; 235; 239; 242; 246; 249; 252]);
   (192, [40; 59; 73; 85; 95; 104; 112; 119; 126; 133; 139; 145; 150; 156; 161; 166; 171; 176; 180; 185; 189; 194; 198; 202; 206; 210; 214; 218; 222; 225; 229;
   233; 236; 240; 243; 247; 250; 253]);
   (192, [5; 43; 62; 75; 86; 96; 105; 113; 120; 127; 134; 140; 146; 152; 157; 162; 167; 172; 177; 182; 186; 190; 195; 199; 203; 207; 211; 215; 219; 223; 226;
   230; 234; 237; 241; 244; 248; 251; 254]);
   (193, [14; 46; 64; 77; 88; 98; 106; 114; 122; 129; 135; 141; 147; 153; 158; 163; 168; 173; 178; 183; 187; 192; 196; 200; 204; 208; 212; 216; 220; 224; 227;
   231; 235; 238; 242; 245; 249; 252; 255]);
   (194, [21; 49; 66; 79; 90; 99; 108; 116; 123; 130; 136; 142; 148; 154; 159; 164; 169; 174; 179; 184; 188; 193; 197; 201; 205; 209; 213; 217; 221; 225; 228;
   232; 236; 239; 243; 246; 250; 253]);
   (195, [27; 52; 68; 80; 91; 101; 109; 117; 124; 131; 137; 143; 149; 155; 160; 165; 170; 175; 180; 185; 189; 194; 198; 202; 206; 210; 214; 218; 222; 226; 229;
   233; 237; 240; 244; 247; 251; 254]);
   (196, [31; 54; 70; 82; 93; 102; 110; 118; 125; 132; 139; 145; 150; 156; 161; 167; 172; 176; 181; 186; 190; 195; 199; 203; 207; 211; 215; 219; 223; 227; 230;
   234; 238; 241; 245; 248; 252; 255]);
   (197, [35; 57; 72; 84; 94; 103; 112; 119; 127; 133; 140; 146; 152; 157; 162; 168; 173; 177; 182; 187; 191; 196; 200; 204; 208; 212; 216; 220; 224; 228; 231;
   235; 239; 242; 246; 249; 253]);
   (198, [39; 59; 74; 86; 96; 105; 113; 121; 128; 135; 141; 147; 153; 158; 164; 169; 174; 179; 183; 188; 192; 197; 201; 205; 209; 213; 217; 221; 225; 229; 233;
   236; 240; 243; 247; 250; 254]);
   (199, [42; 62; 76; 87; 97; 106; 114; 122; 129; 136; 142; 148; 154; 159; 165; 170; 175; 180; 184; 189; 193; 198; 202; 206; 210; 214; 218; 222; 226; 230; 234;
   237; 241; 244; 248; 251; 255]);
   (199, [9; 45; 64; 77; 89; 99; 108; 116; 123; 130; 137; 143; 149; 155; 160; 166; 171; 176; 181; 185; 190; 194; 199; 203; 207; 211; 215; 219; 223; 227; 231;
   235; 238; 242; 245; 249; 252]);
   (200, [18; 48; 66; 79; 90; 100; 109; 117; 125; 132; 138; 144; 150; 156; 162; 167; 172; 177; 182; 186; 191; 195; 200; 204; 208; 212; 216; 220; 224; 228; 232;
   236; 239; 243; 246; 250; 253]);
   (201, [24; 51; 68; 81; 92; 102; 110; 118; 126; 133; 139; 146; 151; 157; 163; 168; 173; 178; 183; 188; 192; 197; 201; 205; 209; 213; 217; 221; 225; 229; 233;
   237; 240; 244; 247; 251; 254]);
   (202, [29; 54; 70; 83; 94; 103; 112; 120; 127; 134; 140; 147; 153; 158; 164; 169; 174; 179; 184; 189; 193; 198; 202; 206; 210; 214; 219; 222; 226; 230; 234;
   238; 241; 245; 248; 252; 255]);
   (203, [34; 57; 72; 85; 95; 105; 113; 121; 128; 135; 142; 148; 154; 159; 165; 170; 175; 180; 185; 190; 194; 199; 203; 207; 211; 216; 220; 223; 227; 231; 235;
   239; 242; 246; 250; 253]);
   (204, [38; 59; 74; 86; 97; 106; 115; 122; 130; 136; 143; 149; 155; 161; 166; 171; 176; 181; 186; 191; 195; 200; 204; 208; 212; 217; 221; 225; 228; 232; 236;
   240; 243; 247; 251; 254]);
   (205, [41; 61; 76; 88; 98; 108; 116; 124; 131; 138; 144; 150; 156; 162; 167; 172; 177; 182; 187; 192; 196; 201; 205; 209; 213; 218; 222; 226; 229; 233; 237;
   241; 244; 248; 252; 255]);
   (205, [2; 45; 64; 78; 90; 100; 109; 117; 125; 132; 139; 145; 151; 157; 163; 168; 173; 178; 183; 188; 193; 197; 202; 206; 210; 215; 219; 223; 227; 230; 234;
   238; 242; 245; 249; 253]);
   (206, [13; 48; 66; 80; 91; 101; 110; 119; 126; 133; 140; 146; 152; 158; 164; 169; 174; 180; 184; 189; 194; 198; 203; 207; 211; 216; 220; 224; 228; 232; 235;
   239; 243; 246; 250; 254]);
   (207, [21; 51; 68; 82; 93; 103; 112; 120; 127; 135; 141; 148; 154; 159; 165; 170; 176; 181; 185; 190; 195; 199; 204; 208; 212; 217; 221; 225; 229; 233; 236;
   240; 244; 247; 251; 255]);
   (208, [27; 53; 70; 83; 95; 104; 113; 121; 129; 136; 142; 149; 155; 161; 166; 171; 177; 182; 187; 191; 196; 200; 205; 209; 213; 218; 222; 226; 230; 234; 237;
   241; 245; 249; 252]);
   (209, [32; 56; 72; 85; 96; 106; 115; 123; 130; 137; 144; 150; 156; 162; 167; 173; 178; 183; 188; 192; 197; 202; 206; 210; 215; 219; 223; 227; 231; 235; 238;
   242; 246; 250; 253]);
   (210, [36; 59; 74; 87; 98; 107; 116; 124; 131; 138; 145; 151; 157; 163; 168; 174; 179; 184; 189; 193; 198; 203; 207; 211; 216; 220; 224; 228; 232; 236; 239;
   243; 247; 251; 254]);
   (211, [40; 61; 76; 89; 99; 109; 117; 125; 133; 139; 146; 152; 158; 164; 169; 175; 180; 185; 190; 194; 199; 204; 208; 212; 217; 221; 225; 229; 233; 237; 240;
   244; 248; 252; 255]);
   (212, [43; 64; 78; 90; 101; 110; 119; 126; 134; 141; 147; 153; 159; 165; 171; 176; 181; 186; 191; 196; 200; 205; 209; 213; 218; 222; 226; 230; 234; 238;
   241; 245; 249; 253]);
   (212, [7; 47; 66; 80; 92; 102; 112; 120; 128; 135; 142; 148; 155; 160; 166; 172; 177; 182; 187; 192; 197; 201; 206; 210; 214; 219; 223; 227; 231; 235; 239;
   243; 246; 250; 254]);
   (213, [17; 50; 68; 82; 94; 104; 113; 121; 129; 136; 143; 150; 156; 162; 167; 173; 178; 183; 188; 193; 198; 202; 207; 211; 215; 220; 224; 228; 232; 236; 240;
   244; 247; 251; 255]);
   (214, [24; 53; 70; 84; 95; 105; 114; 123; 130; 138; 144; 151; 157; 163; 168; 174; 179; 184; 189; 194; 199; 203; 208; 212; 217; 221; 225; 229; 233; 237; 241;
   245; 248; 252]);
   (215, [29; 56; 73; 86; 97; 107; 116; 124; 132; 139; 145; 152; 158; 164; 170; 175; 180; 185; 190; 195; 200; 204; 209; 213; 218; 222; 226; 230; 234; 238; 242;
   246; 249; 253]);
   (216, [34; 58; 75; 88; 99; 108; 117; 125; 133; 140; 147; 153; 159; 165; 171; 176; 181; 186; 191; 196; 201; 205; 210; 214; 219; 223; 227; 231; 235; 239; 243;
   247; 250; 254]);
   (217, [38; 61; 77; 89; 100; 110; 119; 127; 134; 141; 148; 154; 160; 166; 172; 177; 182; 187; 192; 197; 202; 206; 211; 215; 220; 224; 228; 232; 236; 240;
   244; 248; 251; 255]);
   (218, [42; 63; 79; 91; 102; 111; 120; 128; 135; 142; 149; 155; 161; 167; 173; 178; 183; 189; 193; 198; 203; 208; 212; 216; 221; 225; 229; 233; 237; 241;
   245; 249; 252]);
   (219, [46; 66; 81; 93; 103; 113; 121; 129; 137; 144; 150; 157; 163; 168; 174; 179; 185; 190; 195; 199; 204; 209; 213; 217; 222; 226; 230; 234; 238; 242;
   246; 250; 253]);
   (219, [11; 49; 68; 83; 94; 105; 114; 123; 131; 138; 145; 151; 158; 164; 170; 175; 180; 186; 191; 196; 200; 205; 210; 214; 218; 223; 227; 231; 235; 239; 243;
   247; 251; 255]);
   (220, [20; 52; 70; 84; 96; 106; 116; 124; 132; 139; 146; 153; 159; 165; 171; 176; 182; 187; 192; 197; 201; 206; 211; 215; 220; 224; 228; 232; 236; 240; 244;
   248; 252])].

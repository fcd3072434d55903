(** The functional tests of the repository (tests/*.js) on the model: the same keys, boxes and
    transactions, the same presses, and the screens, answers and errors the tests expect.
    Evidence that the model does what the code does. *)
From Coq Require Import String.
From Verif Require Import SpecText Lib Env UiFlow P2pkOp Base58 App SpecTree SpecTx SpecTrace SpecApdu SpecRules Toy ReadApp SpecRaw Wire Restart Buttons SpecButtons Whole SpecWhole SpecBlake Blake2bProofs SpecHost.

(** ** The keys of tests/seed.txt, computed by BIP-39 and BIP-32 outside of Coq; tests/helpers/data.js
    has the public key and chain code of the account and the addresses 0, 1, 2 and 22 *)
Definition ADDRESS (i : N) : list N := ACCOUNT0 ++ [0; i].

(** Path, private key, chain code. *)
Definition KEYS : list (list N * (bytes * bytes)) :=
  [(ACCOUNT0, (be_bytes 32 0x8a74259720180b96d3a78e3e96707621b378f761fc5e0b4dd7209d2800e9de9a,
     be_bytes 32 0x8eb29c7897d57aee371bf254be6516e6963e2d9b379d0d626c17a39d1a3bf553));
   ((ADDRESS 0), (be_bytes 32 0x9b28c71b224d54eaec6bc10fd264478b97e383a17df400e3c9f2775c2e586569,
     be_bytes 32 0xddc54c4b13a3198ef37ce96b80532b3d68c66c5af1ff3aca56d9b7df735e4337));
   ((ADDRESS 1), (be_bytes 32 0x97cbd1f1278f6c0b3796dced8a76589ba807d31ffeba205b412cfa5e0f4f850c,
     be_bytes 32 0x80d59f5047b2df38161954cc629da7d0e880d9eb300dc9c954d0e07f62f20927));
   ((ADDRESS 2), (be_bytes 32 0xb67fc8d7fd47a54e000a16f268dd44c1d6249d7ef2f0138ab765da1ba3438230,
     be_bytes 32 0x88d06441b992ff2d8c6fb76df7dd853e7f501d872408a4f3daed5f80385bc80f));
   ((ADDRESS 22), (be_bytes 32 0x7c9febecb40bdcddc9c508df9be4549ba50bdf7103a31ffc5219cf5247062064,
     be_bytes 32 0x004920b64044c6572e653dd458c780431a1ac804a66386f584e7ac911b5ed88e))].
(** Scalar and multiple of the generator: the keys, and the nonce. *)
Definition NONCE : bytes := be_bytes 32 0x65666768696a6b6c6d6e6f707172737475767778797a7b7c7d7e7f8081828384.
Definition POINTS : list (bytes * bytes) :=
  [(be_bytes 32 0x8a74259720180b96d3a78e3e96707621b378f761fc5e0b4dd7209d2800e9de9a, 4 :: be_bytes 32 0xc24e55008b523ccaf03b6c757f88c4881ef3331a255b76d2e078016c69c3dfd4 ++ be_bytes 32 0xbece2cfec63fd02b67600d90d821b49646fe898243ae41622fb127cdf50ef55d);
   (be_bytes 32 0x9b28c71b224d54eaec6bc10fd264478b97e383a17df400e3c9f2775c2e586569, 4 :: be_bytes 32 0x3088e457b2ccd2d26e4c5df8bf3c0c332807ed7a9eb02a4b71affb576fb14210 ++ be_bytes 32 0x495763b76a5d07bb65618873400855ff3361a9cad5eb645a751c852b822d770d);
   (be_bytes 32 0x97cbd1f1278f6c0b3796dced8a76589ba807d31ffeba205b412cfa5e0f4f850c, 4 :: be_bytes 32 0xf44c9ca3bfdf8672237b8e212cdc38444eda9e25c3a1e34b875b76cd15b992a4 ++ be_bytes 32 0xdcd64b7e4856186e06638a151c6d396feb381454c00cb9355b19531cea51c5db);
   (be_bytes 32 0xb67fc8d7fd47a54e000a16f268dd44c1d6249d7ef2f0138ab765da1ba3438230, 4 :: be_bytes 32 0x247e57ecbb25a22956001a2d66d1cf06de950c115bc787d73e2099f62b8fbec2 ++ be_bytes 32 0xb33c5961852acee5fb5bcf1a3ded4473ce222148c141cef5aab9ed1389850772);
   (be_bytes 32 0x7c9febecb40bdcddc9c508df9be4549ba50bdf7103a31ffc5219cf5247062064, 4 :: be_bytes 32 0x776977e77aaf8c119a88b8947437152bd9874e70e3d5d41057063ce50a3fbd43 ++ be_bytes 32 0x41cd5926d8ea0fb50a38db4a6e4c54ed898b95c229eef48d9e46fa280d469e88);
   (be_bytes 32 0x65666768696a6b6c6d6e6f707172737475767778797a7b7c7d7e7f8081828384, 4 :: be_bytes 32 0xb3c82426768c46023c5e7ce95036c4965e70691481ea80bc80d1f3f837200987 ++ be_bytes 32 0x1fecc6f4b8c073217402d18ed31957b45d301af344eb21ad9fed5a8728f30a06)].
Definition path_eqb (a b : list N) : bool := bytes_eqb a b.
Fixpoint lookup {A B} (eqb : A -> A -> bool) (x : A) (l : list (A * B)) : option B :=
  match l with [] => None | (y, v) :: t => if eqb x y then Some v else lookup eqb x t end.
(** BLAKE2b-256 of what the tests hash, so that it need not be computed again and again:
    addresses, boxes, transactions behind the commitment.  [hash] is BLAKE2b-256 ([hash_blake]). *)
Definition HASHES : list (bytes * bytes) :=
  [([1; 3; 48; 136; 228; 87; 178; 204; 210; 210; 110; 76; 93; 248; 191; 60; 12; 51; 40; 7; 237; 122; 158; 176; 42; 75; 113; 175; 251; 87; 111; 177; 66;
     16],
    [107; 168; 220; 65; 174; 147; 48; 101; 175; 198; 220; 4; 95; 82; 230; 234; 4; 158; 213; 134; 211; 22; 246; 64; 214; 222; 242; 111; 186; 127; 83; 111]);
   ([1; 3; 244; 76; 156; 163; 191; 223; 134; 114; 35; 123; 142; 33; 44; 220; 56; 68; 78; 218; 158; 37; 195; 161; 227; 75; 135; 91; 118; 205; 21; 185; 146;
     164],
    [50; 150; 195; 181; 237; 14; 188; 180; 63; 119; 51; 241; 22; 161; 25; 113; 205; 90; 193; 253; 169; 17; 53; 27; 140; 104; 54; 32; 178; 114; 215; 237]);
   ([1; 2; 36; 126; 87; 236; 187; 37; 162; 41; 86; 0; 26; 45; 102; 209; 207; 6; 222; 149; 12; 17; 91; 199; 135; 215; 62; 32; 153; 246; 43; 143; 190; 194],
    [253; 130; 162; 233; 81; 193; 75; 109; 53; 141; 103; 35; 210; 150; 147; 232; 245; 203; 217; 101; 241; 189; 21; 174; 172; 82; 208; 158; 36; 187; 80;
     120]);
   ([1; 2; 119; 105; 119; 231; 122; 175; 140; 17; 154; 136; 184; 148; 116; 55; 21; 43; 217; 135; 78; 112; 227; 213; 212; 16; 87; 6; 60; 229; 10; 63; 189;
     67],
    [199; 141; 96; 252; 207; 23; 112; 68; 184; 177; 35; 26; 17; 171; 124; 77; 185; 155; 133; 144; 74; 67; 84; 124; 126; 11; 214; 231; 69; 71; 3; 134]);
   ([128; 148; 235; 220; 3; 0; 8; 205; 3; 48; 136; 228; 87; 178; 204; 210; 210; 110; 76; 93; 248; 191; 60; 12; 51; 40; 7; 237; 122; 158; 176; 42; 75; 113;
     175; 251; 87; 111; 177; 66; 16; 0; 0; 0; 0; 0; 0; 0; 0; 0; 0; 0; 0; 0; 0; 0; 0; 0; 0; 0; 0; 0; 0; 0; 0; 0; 0; 0; 0; 0; 0; 0; 0; 0; 0; 0; 0],
    [49; 157; 163; 76; 220; 177; 187; 89; 10; 187; 88; 103; 235; 13; 50; 52; 197; 151; 202; 139; 81; 223; 2; 68; 180; 237; 191; 222; 127; 254; 3; 147]);
   ([128; 148; 235; 220; 3; 0; 8; 205; 3; 48; 136; 228; 87; 178; 204; 210; 210; 110; 76; 93; 248; 191; 60; 12; 51; 40; 7; 237; 122; 158; 176; 42; 75; 113;
     175; 251; 87; 111; 177; 66; 16; 0; 0; 2; 4; 246; 1; 14; 5; 1; 2; 3; 4; 5; 0; 0; 0; 0; 0; 0; 0; 0; 0; 0; 0; 0; 0; 0; 0; 0; 0; 0; 0; 0; 0; 0; 0; 0; 0;
     0; 0; 0; 0; 0; 0; 0; 0],
    [239; 22; 244; 166; 219; 97; 161; 195; 26; 234; 85; 211; 191; 16; 225; 251; 100; 67; 207; 8; 207; 244; 161; 207; 46; 58; 71; 128; 225; 49; 45; 186]);
   ([128; 148; 235; 220; 3; 0; 8; 205; 3; 48; 136; 228; 87; 178; 204; 210; 210; 110; 76; 93; 248; 191; 60; 12; 51; 40; 7; 237; 122; 158; 176; 42; 75; 113;
     175; 251; 87; 111; 177; 66; 16; 0; 1; 17; 17; 17; 17; 17; 17; 17; 17; 17; 17; 17; 17; 17; 17; 17; 17; 17; 17; 17; 17; 17; 17; 17; 17; 17; 17; 17; 17;
     17; 17; 17; 17; 232; 7; 0; 0; 0; 0; 0; 0; 0; 0; 0; 0; 0; 0; 0; 0; 0; 0; 0; 0; 0; 0; 0; 0; 0; 0; 0; 0; 0; 0; 0; 0; 0; 0; 0; 0],
    [243; 236; 188; 98; 185; 44; 82; 75; 3; 199; 103; 193; 253; 35; 223; 28; 65; 111; 105; 227; 75; 210; 0; 210; 53; 209; 160; 216; 26; 147; 233; 235]);
   ([128; 148; 235; 220; 3; 0; 8; 205; 3; 48; 136; 228; 87; 178; 204; 210; 210; 110; 76; 93; 248; 191; 60; 12; 51; 40; 7; 237; 122; 158; 176; 42; 75; 113;
     175; 251; 87; 111; 177; 66; 16; 0; 1; 17; 17; 17; 17; 17; 17; 17; 17; 17; 17; 17; 17; 17; 17; 17; 17; 17; 17; 17; 17; 17; 17; 17; 17; 17; 17; 17; 17;
     17; 17; 17; 17; 210; 9; 0; 0; 0; 0; 0; 0; 0; 0; 0; 0; 0; 0; 0; 0; 0; 0; 0; 0; 0; 0; 0; 0; 0; 0; 0; 0; 0; 0; 0; 0; 0; 0; 0; 0],
    [166; 221; 29; 153; 129; 22; 152; 148; 225; 52; 188; 151; 191; 217; 59; 77; 244; 240; 109; 1; 220; 149; 210; 16; 185; 253; 154; 137; 21; 134; 102; 11]);
   ([128; 194; 215; 47; 0; 8; 205; 3; 48; 136; 228; 87; 178; 204; 210; 210; 110; 76; 93; 248; 191; 60; 12; 51; 40; 7; 237; 122; 158; 176; 42; 75; 113;
     175; 251; 87; 111; 177; 66; 16; 0; 0; 0; 0; 0; 0; 0; 0; 0; 0; 0; 0; 0; 0; 0; 0; 0; 0; 0; 0; 0; 0; 0; 0; 0; 0; 0; 0; 0; 0; 0; 0; 0; 0; 0; 0],
    [10; 80; 34; 129; 63; 253; 233; 140; 17; 111; 113; 47; 225; 23; 91; 89; 106; 115; 220; 32; 99; 76; 177; 147; 94; 44; 216; 140; 224; 20; 107; 26]);
   ([128; 194; 215; 47; 0; 8; 205; 3; 48; 136; 228; 87; 178; 204; 210; 210; 110; 76; 93; 248; 191; 60; 12; 51; 40; 7; 237; 122; 158; 176; 42; 75; 113;
     175; 251; 87; 111; 177; 66; 16; 0; 0; 0; 0; 0; 0; 0; 0; 0; 0; 0; 0; 0; 0; 0; 0; 0; 0; 0; 0; 0; 0; 0; 0; 0; 0; 0; 0; 0; 0; 0; 0; 0; 0; 0; 1],
    [58; 147; 188; 123; 59; 202; 118; 208; 209; 245; 201; 93; 28; 210; 76; 140; 184; 197; 44; 45; 252; 118; 232; 199; 18; 183; 21; 189; 224; 245; 97; 195]);
   ([1; 0; 39; 16; 1; 8; 205; 3; 48; 136; 228; 87; 178; 204; 210; 210; 110; 76; 93; 248; 191; 60; 12; 51; 40; 7; 237; 122; 158; 176; 42; 75; 113; 175;
     251; 87; 111; 177; 66; 16; 115; 0; 0; 33; 2; 179; 200; 36; 38; 118; 140; 70; 2; 60; 94; 124; 233; 80; 54; 196; 150; 94; 112; 105; 20; 129; 234; 128;
     188; 128; 209; 243; 248; 55; 32; 9; 135; 1; 49; 157; 163; 76; 220; 177; 187; 89; 10; 187; 88; 103; 235; 13; 50; 52; 197; 151; 202; 139; 81; 223; 2;
     68; 180; 237; 191; 222; 127; 254; 3; 147; 0; 0; 1; 58; 147; 188; 123; 59; 202; 118; 208; 209; 245; 201; 93; 28; 210; 76; 140; 184; 197; 44; 45; 252;
     118; 232; 199; 18; 183; 21; 189; 224; 245; 97; 195; 0; 3; 128; 194; 215; 47; 0; 8; 205; 3; 244; 76; 156; 163; 191; 223; 134; 114; 35; 123; 142; 33;
     44; 220; 56; 68; 78; 218; 158; 37; 195; 161; 227; 75; 135; 91; 118; 205; 21; 185; 146; 164; 0; 0; 0; 192; 205; 214; 172; 3; 0; 8; 205; 2; 36; 126; 87;
     236; 187; 37; 162; 41; 86; 0; 26; 45; 102; 209; 207; 6; 222; 149; 12; 17; 91; 199; 135; 215; 62; 32; 153; 246; 43; 143; 190; 194; 0; 0; 0; 192; 132;
     61; 16; 5; 4; 0; 4; 0; 14; 54; 16; 2; 4; 160; 11; 8; 205; 2; 121; 190; 102; 126; 249; 220; 187; 172; 85; 160; 98; 149; 206; 135; 11; 7; 2; 155; 252;
     219; 45; 206; 40; 217; 89; 242; 129; 91; 22; 248; 23; 152; 234; 2; 209; 146; 163; 154; 140; 199; 167; 1; 115; 0; 115; 1; 16; 1; 2; 4; 2; 209; 150;
     131; 3; 1; 147; 163; 140; 199; 178; 165; 115; 0; 0; 1; 147; 194; 178; 165; 115; 1; 0; 116; 115; 2; 115; 3; 131; 1; 8; 205; 238; 172; 147; 177; 165;
     115; 4; 0; 0; 0],
    [18; 46; 160; 87; 104; 218; 231; 122; 97; 115; 166; 227; 152; 198; 200; 118; 139; 160; 186; 165; 160; 149; 117; 179; 78; 62; 191; 85; 93; 243; 27; 46]);
   ([1; 0; 39; 16; 1; 8; 205; 3; 48; 136; 228; 87; 178; 204; 210; 210; 110; 76; 93; 248; 191; 60; 12; 51; 40; 7; 237; 122; 158; 176; 42; 75; 113; 175;
     251; 87; 111; 177; 66; 16; 115; 0; 0; 33; 2; 179; 200; 36; 38; 118; 140; 70; 2; 60; 94; 124; 233; 80; 54; 196; 150; 94; 112; 105; 20; 129; 234; 128;
     188; 128; 209; 243; 248; 55; 32; 9; 135; 1; 49; 157; 163; 76; 220; 177; 187; 89; 10; 187; 88; 103; 235; 13; 50; 52; 197; 151; 202; 139; 81; 223; 2;
     68; 180; 237; 191; 222; 127; 254; 3; 147; 0; 0; 1; 58; 147; 188; 123; 59; 202; 118; 208; 209; 245; 201; 93; 28; 210; 76; 140; 184; 197; 44; 45; 252;
     118; 232; 199; 18; 183; 21; 189; 224; 245; 97; 195; 0; 3; 128; 194; 215; 47; 0; 8; 205; 3; 244; 76; 156; 163; 191; 223; 134; 114; 35; 123; 142; 33;
     44; 220; 56; 68; 78; 218; 158; 37; 195; 161; 227; 75; 135; 91; 118; 205; 21; 185; 146; 164; 0; 0; 0; 192; 205; 214; 172; 3; 0; 8; 205; 2; 119; 105;
     119; 231; 122; 175; 140; 17; 154; 136; 184; 148; 116; 55; 21; 43; 217; 135; 78; 112; 227; 213; 212; 16; 87; 6; 60; 229; 10; 63; 189; 67; 0; 0; 0; 192;
     132; 61; 16; 5; 4; 0; 4; 0; 14; 54; 16; 2; 4; 160; 11; 8; 205; 2; 121; 190; 102; 126; 249; 220; 187; 172; 85; 160; 98; 149; 206; 135; 11; 7; 2; 155;
     252; 219; 45; 206; 40; 217; 89; 242; 129; 91; 22; 248; 23; 152; 234; 2; 209; 146; 163; 154; 140; 199; 167; 1; 115; 0; 115; 1; 16; 1; 2; 4; 2; 209;
     150; 131; 3; 1; 147; 163; 140; 199; 178; 165; 115; 0; 0; 1; 147; 194; 178; 165; 115; 1; 0; 116; 115; 2; 115; 3; 131; 1; 8; 205; 238; 172; 147; 177;
     165; 115; 4; 0; 0; 0],
    [194; 103; 125; 79; 43; 199; 171; 204; 18; 216; 189; 147; 49; 86; 167; 238; 97; 243; 10; 33; 179; 214; 61; 171; 132; 76; 62; 227; 164; 99; 96; 148]);
   ([1; 0; 39; 16; 1; 8; 205; 3; 48; 136; 228; 87; 178; 204; 210; 210; 110; 76; 93; 248; 191; 60; 12; 51; 40; 7; 237; 122; 158; 176; 42; 75; 113; 175;
     251; 87; 111; 177; 66; 16; 115; 0; 0; 33; 2; 179; 200; 36; 38; 118; 140; 70; 2; 60; 94; 124; 233; 80; 54; 196; 150; 94; 112; 105; 20; 129; 234; 128;
     188; 128; 209; 243; 248; 55; 32; 9; 135; 1; 239; 22; 244; 166; 219; 97; 161; 195; 26; 234; 85; 211; 191; 16; 225; 251; 100; 67; 207; 8; 207; 244; 161;
     207; 46; 58; 71; 128; 225; 49; 45; 186; 0; 0; 0; 0; 3; 128; 194; 215; 47; 0; 8; 205; 3; 244; 76; 156; 163; 191; 223; 134; 114; 35; 123; 142; 33; 44;
     220; 56; 68; 78; 218; 158; 37; 195; 161; 227; 75; 135; 91; 118; 205; 21; 185; 146; 164; 0; 0; 0; 192; 205; 214; 172; 3; 0; 8; 205; 2; 36; 126; 87;
     236; 187; 37; 162; 41; 86; 0; 26; 45; 102; 209; 207; 6; 222; 149; 12; 17; 91; 199; 135; 215; 62; 32; 153; 246; 43; 143; 190; 194; 0; 0; 0; 192; 132;
     61; 16; 5; 4; 0; 4; 0; 14; 54; 16; 2; 4; 160; 11; 8; 205; 2; 121; 190; 102; 126; 249; 220; 187; 172; 85; 160; 98; 149; 206; 135; 11; 7; 2; 155; 252;
     219; 45; 206; 40; 217; 89; 242; 129; 91; 22; 248; 23; 152; 234; 2; 209; 146; 163; 154; 140; 199; 167; 1; 115; 0; 115; 1; 16; 1; 2; 4; 2; 209; 150;
     131; 3; 1; 147; 163; 140; 199; 178; 165; 115; 0; 0; 1; 147; 194; 178; 165; 115; 1; 0; 116; 115; 2; 115; 3; 131; 1; 8; 205; 238; 172; 147; 177; 165;
     115; 4; 0; 0; 0],
    [21; 28; 190; 139; 116; 186; 174; 191; 10; 243; 154; 179; 138; 43; 247; 167; 127; 32; 220; 206; 100; 63; 33; 254; 58; 55; 155; 253; 153; 2; 198; 9]);
   ([1; 0; 39; 16; 1; 8; 205; 3; 48; 136; 228; 87; 178; 204; 210; 210; 110; 76; 93; 248; 191; 60; 12; 51; 40; 7; 237; 122; 158; 176; 42; 75; 113; 175;
     251; 87; 111; 177; 66; 16; 115; 0; 0; 33; 2; 179; 200; 36; 38; 118; 140; 70; 2; 60; 94; 124; 233; 80; 54; 196; 150; 94; 112; 105; 20; 129; 234; 128;
     188; 128; 209; 243; 248; 55; 32; 9; 135; 1; 49; 157; 163; 76; 220; 177; 187; 89; 10; 187; 88; 103; 235; 13; 50; 52; 197; 151; 202; 139; 81; 223; 2;
     68; 180; 237; 191; 222; 127; 254; 3; 147; 0; 0; 0; 0; 3; 128; 194; 215; 47; 0; 8; 205; 3; 244; 76; 156; 163; 191; 223; 134; 114; 35; 123; 142; 33; 44;
     220; 56; 68; 78; 218; 158; 37; 195; 161; 227; 75; 135; 91; 118; 205; 21; 185; 146; 164; 0; 0; 0; 192; 205; 214; 172; 3; 0; 8; 205; 2; 36; 126; 87;
     236; 187; 37; 162; 41; 86; 0; 26; 45; 102; 209; 207; 6; 222; 149; 12; 17; 91; 199; 135; 215; 62; 32; 153; 246; 43; 143; 190; 194; 0; 0; 0; 192; 132;
     61; 16; 5; 4; 0; 4; 0; 14; 54; 16; 2; 4; 160; 11; 8; 205; 2; 121; 190; 102; 126; 249; 220; 187; 172; 85; 160; 98; 149; 206; 135; 11; 7; 2; 155; 252;
     219; 45; 206; 40; 217; 89; 242; 129; 91; 22; 248; 23; 152; 234; 2; 209; 146; 163; 154; 140; 199; 167; 1; 115; 0; 115; 1; 16; 1; 2; 4; 2; 209; 150;
     131; 3; 1; 147; 163; 140; 199; 178; 165; 115; 0; 0; 1; 147; 194; 178; 165; 115; 1; 0; 116; 115; 2; 115; 3; 131; 1; 8; 205; 238; 172; 147; 177; 165;
     115; 4; 0; 0; 0],
    [251; 9; 123; 157; 206; 60; 164; 64; 57; 55; 253; 113; 237; 24; 225; 245; 166; 61; 245; 230; 66; 240; 169; 18; 118; 138; 102; 63; 250; 246; 18; 242]);
   ([1; 0; 39; 16; 1; 8; 205; 3; 48; 136; 228; 87; 178; 204; 210; 210; 110; 76; 93; 248; 191; 60; 12; 51; 40; 7; 237; 122; 158; 176; 42; 75; 113; 175;
     251; 87; 111; 177; 66; 16; 115; 0; 0; 33; 2; 179; 200; 36; 38; 118; 140; 70; 2; 60; 94; 124; 233; 80; 54; 196; 150; 94; 112; 105; 20; 129; 234; 128;
     188; 128; 209; 243; 248; 55; 32; 9; 135; 1; 243; 236; 188; 98; 185; 44; 82; 75; 3; 199; 103; 193; 253; 35; 223; 28; 65; 111; 105; 227; 75; 210; 0;
     210; 53; 209; 160; 216; 26; 147; 233; 235; 0; 0; 1; 10; 80; 34; 129; 63; 253; 233; 140; 17; 111; 113; 47; 225; 23; 91; 89; 106; 115; 220; 32; 99; 76;
     177; 147; 94; 44; 216; 140; 224; 20; 107; 26; 1; 17; 17; 17; 17; 17; 17; 17; 17; 17; 17; 17; 17; 17; 17; 17; 17; 17; 17; 17; 17; 17; 17; 17; 17; 17;
     17; 17; 17; 17; 17; 17; 17; 3; 128; 194; 215; 47; 0; 8; 205; 3; 244; 76; 156; 163; 191; 223; 134; 114; 35; 123; 142; 33; 44; 220; 56; 68; 78; 218;
     158; 37; 195; 161; 227; 75; 135; 91; 118; 205; 21; 185; 146; 164; 0; 1; 0; 232; 7; 0; 192; 205; 214; 172; 3; 0; 8; 205; 2; 36; 126; 87; 236; 187; 37;
     162; 41; 86; 0; 26; 45; 102; 209; 207; 6; 222; 149; 12; 17; 91; 199; 135; 215; 62; 32; 153; 246; 43; 143; 190; 194; 0; 0; 0; 192; 132; 61; 16; 5; 4;
     0; 4; 0; 14; 54; 16; 2; 4; 160; 11; 8; 205; 2; 121; 190; 102; 126; 249; 220; 187; 172; 85; 160; 98; 149; 206; 135; 11; 7; 2; 155; 252; 219; 45; 206;
     40; 217; 89; 242; 129; 91; 22; 248; 23; 152; 234; 2; 209; 146; 163; 154; 140; 199; 167; 1; 115; 0; 115; 1; 16; 1; 2; 4; 2; 209; 150; 131; 3; 1; 147;
     163; 140; 199; 178; 165; 115; 0; 0; 1; 147; 194; 178; 165; 115; 1; 0; 116; 115; 2; 115; 3; 131; 1; 8; 205; 238; 172; 147; 177; 165; 115; 4; 0; 0; 0],
    [38; 159; 168; 165; 195; 173; 84; 166; 149; 95; 228; 40; 150; 85; 153; 239; 3; 17; 33; 97; 38; 134; 160; 100; 217; 30; 196; 197; 202; 169; 224; 74]);
   ([1; 0; 39; 16; 1; 8; 205; 3; 48; 136; 228; 87; 178; 204; 210; 210; 110; 76; 93; 248; 191; 60; 12; 51; 40; 7; 237; 122; 158; 176; 42; 75; 113; 175;
     251; 87; 111; 177; 66; 16; 115; 0; 0; 33; 2; 179; 200; 36; 38; 118; 140; 70; 2; 60; 94; 124; 233; 80; 54; 196; 150; 94; 112; 105; 20; 129; 234; 128;
     188; 128; 209; 243; 248; 55; 32; 9; 135; 1; 243; 236; 188; 98; 185; 44; 82; 75; 3; 199; 103; 193; 253; 35; 223; 28; 65; 111; 105; 227; 75; 210; 0;
     210; 53; 209; 160; 216; 26; 147; 233; 235; 0; 0; 1; 10; 80; 34; 129; 63; 253; 233; 140; 17; 111; 113; 47; 225; 23; 91; 89; 106; 115; 220; 32; 99; 76;
     177; 147; 94; 44; 216; 140; 224; 20; 107; 26; 0; 3; 128; 194; 215; 47; 0; 8; 205; 3; 244; 76; 156; 163; 191; 223; 134; 114; 35; 123; 142; 33; 44; 220;
     56; 68; 78; 218; 158; 37; 195; 161; 227; 75; 135; 91; 118; 205; 21; 185; 146; 164; 0; 0; 0; 192; 205; 214; 172; 3; 0; 8; 205; 2; 36; 126; 87; 236;
     187; 37; 162; 41; 86; 0; 26; 45; 102; 209; 207; 6; 222; 149; 12; 17; 91; 199; 135; 215; 62; 32; 153; 246; 43; 143; 190; 194; 0; 0; 0; 192; 132; 61;
     16; 5; 4; 0; 4; 0; 14; 54; 16; 2; 4; 160; 11; 8; 205; 2; 121; 190; 102; 126; 249; 220; 187; 172; 85; 160; 98; 149; 206; 135; 11; 7; 2; 155; 252; 219;
     45; 206; 40; 217; 89; 242; 129; 91; 22; 248; 23; 152; 234; 2; 209; 146; 163; 154; 140; 199; 167; 1; 115; 0; 115; 1; 16; 1; 2; 4; 2; 209; 150; 131; 3;
     1; 147; 163; 140; 199; 178; 165; 115; 0; 0; 1; 147; 194; 178; 165; 115; 1; 0; 116; 115; 2; 115; 3; 131; 1; 8; 205; 238; 172; 147; 177; 165; 115; 4; 0;
     0; 0],
    [238; 7; 172; 217; 151; 221; 141; 120; 10; 73; 16; 25; 115; 76; 153; 81; 176; 17; 242; 41; 147; 194; 86; 46; 29; 176; 23; 152; 193; 46; 208; 98]);
   ([1; 0; 39; 16; 1; 8; 205; 3; 48; 136; 228; 87; 178; 204; 210; 210; 110; 76; 93; 248; 191; 60; 12; 51; 40; 7; 237; 122; 158; 176; 42; 75; 113; 175;
     251; 87; 111; 177; 66; 16; 115; 0; 0; 33; 2; 179; 200; 36; 38; 118; 140; 70; 2; 60; 94; 124; 233; 80; 54; 196; 150; 94; 112; 105; 20; 129; 234; 128;
     188; 128; 209; 243; 248; 55; 32; 9; 135; 1; 49; 157; 163; 76; 220; 177; 187; 89; 10; 187; 88; 103; 235; 13; 50; 52; 197; 151; 202; 139; 81; 223; 2;
     68; 180; 237; 191; 222; 127; 254; 3; 147; 0; 0; 1; 10; 80; 34; 129; 63; 253; 233; 140; 17; 111; 113; 47; 225; 23; 91; 89; 106; 115; 220; 32; 99; 76;
     177; 147; 94; 44; 216; 140; 224; 20; 107; 26; 1; 49; 157; 163; 76; 220; 177; 187; 89; 10; 187; 88; 103; 235; 13; 50; 52; 197; 151; 202; 139; 81; 223;
     2; 68; 180; 237; 191; 222; 127; 254; 3; 147; 3; 128; 194; 215; 47; 0; 8; 205; 3; 244; 76; 156; 163; 191; 223; 134; 114; 35; 123; 142; 33; 44; 220; 56;
     68; 78; 218; 158; 37; 195; 161; 227; 75; 135; 91; 118; 205; 21; 185; 146; 164; 0; 1; 0; 232; 7; 0; 192; 205; 214; 172; 3; 0; 8; 205; 2; 36; 126; 87;
     236; 187; 37; 162; 41; 86; 0; 26; 45; 102; 209; 207; 6; 222; 149; 12; 17; 91; 199; 135; 215; 62; 32; 153; 246; 43; 143; 190; 194; 0; 0; 0; 192; 132;
     61; 16; 5; 4; 0; 4; 0; 14; 54; 16; 2; 4; 160; 11; 8; 205; 2; 121; 190; 102; 126; 249; 220; 187; 172; 85; 160; 98; 149; 206; 135; 11; 7; 2; 155; 252;
     219; 45; 206; 40; 217; 89; 242; 129; 91; 22; 248; 23; 152; 234; 2; 209; 146; 163; 154; 140; 199; 167; 1; 115; 0; 115; 1; 16; 1; 2; 4; 2; 209; 150;
     131; 3; 1; 147; 163; 140; 199; 178; 165; 115; 0; 0; 1; 147; 194; 178; 165; 115; 1; 0; 116; 115; 2; 115; 3; 131; 1; 8; 205; 238; 172; 147; 177; 165;
     115; 4; 0; 0; 0],
    [103; 23; 32; 64; 82; 204; 82; 18; 229; 52; 34; 86; 206; 241; 63; 205; 33; 167; 244; 228; 24; 43; 254; 158; 29; 171; 42; 146; 36; 71; 61; 21]);
   ([1; 0; 39; 16; 1; 8; 205; 3; 48; 136; 228; 87; 178; 204; 210; 210; 110; 76; 93; 248; 191; 60; 12; 51; 40; 7; 237; 122; 158; 176; 42; 75; 113; 175;
     251; 87; 111; 177; 66; 16; 115; 0; 0; 33; 2; 179; 200; 36; 38; 118; 140; 70; 2; 60; 94; 124; 233; 80; 54; 196; 150; 94; 112; 105; 20; 129; 234; 128;
     188; 128; 209; 243; 248; 55; 32; 9; 135; 1; 166; 221; 29; 153; 129; 22; 152; 148; 225; 52; 188; 151; 191; 217; 59; 77; 244; 240; 109; 1; 220; 149;
     210; 16; 185; 253; 154; 137; 21; 134; 102; 11; 0; 0; 1; 10; 80; 34; 129; 63; 253; 233; 140; 17; 111; 113; 47; 225; 23; 91; 89; 106; 115; 220; 32; 99;
     76; 177; 147; 94; 44; 216; 140; 224; 20; 107; 26; 1; 166; 221; 29; 153; 129; 22; 152; 148; 225; 52; 188; 151; 191; 217; 59; 77; 244; 240; 109; 1; 220;
     149; 210; 16; 185; 253; 154; 137; 21; 134; 102; 11; 3; 128; 194; 215; 47; 0; 8; 205; 3; 244; 76; 156; 163; 191; 223; 134; 114; 35; 123; 142; 33; 44;
     220; 56; 68; 78; 218; 158; 37; 195; 161; 227; 75; 135; 91; 118; 205; 21; 185; 146; 164; 0; 1; 0; 174; 44; 0; 192; 205; 214; 172; 3; 0; 8; 205; 2; 36;
     126; 87; 236; 187; 37; 162; 41; 86; 0; 26; 45; 102; 209; 207; 6; 222; 149; 12; 17; 91; 199; 135; 215; 62; 32; 153; 246; 43; 143; 190; 194; 0; 0; 0;
     192; 132; 61; 16; 5; 4; 0; 4; 0; 14; 54; 16; 2; 4; 160; 11; 8; 205; 2; 121; 190; 102; 126; 249; 220; 187; 172; 85; 160; 98; 149; 206; 135; 11; 7; 2;
     155; 252; 219; 45; 206; 40; 217; 89; 242; 129; 91; 22; 248; 23; 152; 234; 2; 209; 146; 163; 154; 140; 199; 167; 1; 115; 0; 115; 1; 16; 1; 2; 4; 2;
     209; 150; 131; 3; 1; 147; 163; 140; 199; 178; 165; 115; 0; 0; 1; 147; 194; 178; 165; 115; 1; 0; 116; 115; 2; 115; 3; 131; 1; 8; 205; 238; 172; 147;
     177; 165; 115; 4; 0; 0; 0],
    [180; 146; 63; 56; 147; 119; 123; 225; 189; 92; 133; 230; 38; 232; 185; 102; 104; 123; 133; 138; 201; 44; 175; 237; 67; 146; 227; 104; 1; 34; 178; 64])].
Definition hash (l : bytes) : bytes := match lookup bytes_eqb l HASHES with Some h => h | None => blake2b 32 l end.
Lemma bytes_same : forall a b, bytes_eqb a b = true -> a = b.
Proof. intros a b H. apply bytes_eqb_eq. exact H. Qed.
Lemma lookup_in : forall A B eqb (x : A) (l : list (A * B)) v, lookup eqb x l = Some v -> exists y, In (y, v) l /\ eqb x y = true.
Proof.
  intros A B eqb x l v. induction l as [|[y w] l IH]; intro K; [discriminate K|]. cbn [lookup] in K. destruct (eqb x y) eqn:E.
  - assert (w = v) as -> by congruence. exists y. split; [left; reflexivity|exact E].
  - destruct (IH K) as (z & Hz & Ez). exists z. split; [right; exact Hz|exact Ez].
Qed.
Lemma hashes_right : forallb (fun x => bytes_eqb (blake2b 32 (fst x)) (snd x)) HASHES = true.
Proof. vm_compute. reflexivity. Qed.
Lemma hash_blake : forall l, hash l = blake2b 32 l.
Proof.
  intro l. unfold hash. destruct (lookup bytes_eqb l HASHES) as [h|] eqn:K; [|reflexivity].
  apply lookup_in in K as (y & K & Y). apply bytes_same in Y. subst y.
  pose proof hashes_right as F. rewrite forallb_forall in F. specialize (F _ K). cbn [fst snd] in F. apply bytes_same in F. symmetry. exact F.
Qed.
(** BLAKE2b-256 is itself; a stand-in for HMAC-SHA256, whose values no test expects. *)
Definition bench : env := mk_env hash (fun k l => toy_hash (k ++ l))
  (fun p => lookup path_eqb p KEYS) (fun s => lookup bytes_eqb s POINTS) 26.
Lemma bench_ok : env_ok bench.
Proof.
  split; cbn [e_blake e_hmac e_derive e_mulG e_id_keep bench].
  - intro l. rewrite hash_blake. apply digest_ok.
  - intro l. rewrite hash_blake. destruct (digest_ok l) as [_ K]. unfold SpecHash.string_of_bytes in K. unfold bytes_ok. apply forallb_forall. intros x Hx. rewrite Forall_forall in K. apply N.ltb_lt. exact (K x Hx).
  - intros. apply toy_hash_len.
  - intros. apply toy_hash_ok.
  - intros p s c K. apply lookup_in in K as (y & K & _).
    assert (F : forallb (fun x => Nat.eqb (length (fst (snd x))) 32 && Nat.eqb (length (snd (snd x))) 32 && bytes_ok (fst (snd x)) && bytes_ok (snd (snd x))) KEYS = true) by (vm_compute; reflexivity).
    rewrite forallb_forall in F. specialize (F _ K). cbn [fst snd] in F. repeat (apply andb_true_iff in F as [F ?]). repeat split; try assumption; apply Nat.eqb_eq; assumption.
  - intros s w K. apply lookup_in in K as (y & K & _).
    assert (F : forallb (fun x => Nat.eqb (length (snd x)) 65 && bytes_ok (snd x)) POINTS = true) by (vm_compute; reflexivity).
    rewrite forallb_forall in F. specialize (F _ K). cbn [snd] in F. apply andb_true_iff in F as [F1 F2]. split; [apply Nat.eqb_eq; exact F1|exact F2].
  - left. reflexivity.
Qed.

(** ** The tester (tests/helpers/screen.js, flow.js): reads all screens of a question from left
    to right, merging the parts of a text, then goes on to Approve and presses both buttons *)
Definition shown_text := (option text * text)%type.
Definition bench_ux : ux := mk_ux (fun _ b => Nat.div (length b) 17) false.
Definition as_text (x : option (card * nat)) : list shown_text :=
  match x with
  | Some (C_INFO t, _) | Some (C_BUTTON t, _) => [(None, t)]
  | Some (C_TEXT t b, O) => [(Some t, b)]
  | Some (C_TEXT _ _, S _) | None => []
  | Some (C_APPROVE, _) => [(None, str "Approve")]
  | Some (C_REJECT, _) => [(None, str "Reject")]
  end.
Definition shown (w : whole) : option (card * nat) := displayed (wh_dev w).
Definition right (w : whole) : whole := fst (whole_step bench bench_ux w (Presses RIGHT)).
Fixpoint read_flow (fuel : nat) (first : option (card * nat)) (w : whole) : list shown_text :=
  match fuel with
  | O => []
  | S k => let w := right w in
           match shown w, first with
           | Some (C_INFO a, _), Some (C_INFO b, _) => if bytes_eqb a b then [] else as_text (shown w) ++ read_flow k first w
           | Some (C_TEXT a x, O), Some (C_TEXT b y, _) => if bytes_eqb a b && bytes_eqb x y then [] else as_text (shown w) ++ read_flow k first w
           | _, _ => as_text (shown w) ++ read_flow k first w
           end
  end.
Fixpoint click_approve (fuel : nat) (w : whole) : whole * list bytes :=
  match fuel with
  | O => (w, [])
  | S k => let w := right w in
           match shown w with
           | Some (C_APPROVE, _) => let '(w, l) := whole_step bench bench_ux w (Presses BOTH) in (w, SpecWhole.packets l)
           | _ => click_approve k w
           end
  end.
(** Sends the commands one by one; approves each question.  The flows read, the answers. *)
Fixpoint run_test (w : whole) (cmds : list event) : list (list shown_text) * list bytes :=
  match cmds with
  | [] => ([], [])
  | e :: t =>
      let '(w, l) := whole_step bench bench_ux w (done_by (Host e)) in
      if st_busy (dv_st (wh_dev w)) then
        let flow := as_text (shown w) ++ read_flow 40 (shown w) w in
        let '(w, p) := click_approve 40 w in
        let '(fs, ps) := run_test w t in (flow :: fs, p ++ ps)
      else let '(fs, ps) := run_test w t in (fs, SpecWhole.packets l ++ ps)
  end.
Definition BENCH : whole := power_on (init []) ([], []) (repeat 0 260) TOY_KEY.
Definition R : rnd := mk_rnd [NONCE] [7].
(** An authorization token, and how the tests write it (common.js). *)
Definition TOKEN (auth : bool) : bytes := if auth then be_bytes 4 0x00abcdef else [].
Definition APPLICATION : shown_text := (Some (str "Application"), str "0x00abcdef").
Definition p2 (auth : bool) : N := if auth then 2 else 1.
Definition CHOICE : list shown_text := [(None, str "Approve"); (None, str "Reject")].
Definition application (auth : bool) : list shown_text := if auth then [APPLICATION] else [].

(** ** basic-tests.js, public-key-tests.js, address-tests.js *)
Example test_version_name : run_test BENCH [cmd_of 0x01 0 0 []; cmd_of 0x02 0 0 []] = ([], [[0; 0; 5; 0; 0x90; 0]; str "Ergo" ++ [0x90; 0]]).
Proof. vm_compute. reflexivity. Qed.
Definition test_public_key (auth : bool) : Prop :=
  run_test BENCH [Apdu CLA INS_KEY (p2 auth) 0 (path_bytes ACCOUNT0 ++ TOKEN auth) R] =
  ([[(None, str "Ext PubKey Export"); (Some (str "Path"), str "44'/429'/0'")] ++ application auth ++ CHOICE],
   [be_bytes 33 0x03c24e55008b523ccaf03b6c757f88c4881ef3331a255b76d2e078016c69c3dfd4 ++
    be_bytes 32 0x8eb29c7897d57aee371bf254be6516e6963e2d9b379d0d626c17a39d1a3bf553 ++ [0x90; 0]]).
Example test_public_key_ok : test_public_key false /\ test_public_key true.
Proof. split; vm_compute; reflexivity. Qed.
Definition address_at (i : N) : text := str match i with
  | 0 => "9gqBSpseifxnkjRLZUxs5wbJGsvYPG7MLRcBgnKEzFiJoMJaakg" | 1 => "9iKPzGpzrEFFQ7kn2n6BHWU4fgTwSMF7atqPsvHAjgGvogSHz6Y"
  | 2 => "9eo8hALVQTaAuu8m95JhR8rhXuAMsLacaxM8X4omp724Smt8ior" | _ => "9fRejXDJxxdJ1KVRH6HdxDj1S1duKmUNGG7CjztN2YjHnooxYAX" end%string.
Definition path_text (i : N) : text := str match i with 0 => "44'/429'/0'/0/0" | 1 => "44'/429'/0'/0/1" | 2 => "44'/429'/0'/0/2" | _ => "44'/429'/0'/0/22" end%string.
(** The compressed public key of an address, and its script. *)
Definition key_at (i : N) : bytes :=
  match e_derive bench (ADDRESS i) with
  | Some (s, _) => match e_mulG bench s with Some pk => compressed pk | None => [] end
  | None => []
  end.
Definition tree_at (i : N) : bytes := [0x00; 0x08; 0xcd] ++ key_at i.
Definition test_derive_address (auth : bool) : Prop :=
  exists a, base58_encode a 100 = Some (address_at 0) /\
  run_test BENCH [Apdu CLA INS_ADDRESS 1 (p2 auth) ([0] ++ path_bytes (ADDRESS 0) ++ TOKEN auth) R] =
  ([[(None, str "Confirm Send Address"); (Some (str "Path"), path_text 0)] ++ application auth ++ CHOICE], [a ++ [0x90; 0]]).
Definition test_show_address (auth : bool) : Prop :=
  run_test BENCH [Apdu CLA INS_ADDRESS 2 (p2 auth) ([0] ++ path_bytes (ADDRESS 0) ++ TOKEN auth) R] =
  ([[(None, str "Confirm Address"); (Some (str "Path"), path_text 0); (Some (str "Address"), address_at 0)] ++ application auth ++ CHOICE], [[0x90; 0]]).
Lemma derives : forall auth, test_derive_address auth.
Proof. intro auth. exists (firstn 38 (last (snd (run_test BENCH [Apdu CLA INS_ADDRESS 1 1 ([0] ++ path_bytes (ADDRESS 0)) R])) [])). destruct auth; split; vm_compute; reflexivity. Qed.
Example test_address_ok : test_derive_address false /\ test_derive_address true /\ test_show_address false /\ test_show_address true.
Proof. split; [apply derives|]. split; [apply derives|]. split; vm_compute; reflexivity. Qed.

(** ** transaction-tests.js *)
Definition NO_TX : bytes := repeat 0 32.
Definition test_box (tokens : list (bytes * N)) (regs : bytes) : w_box := mk_wb NO_TX 0 1000000000 0 (tree_at 0) tokens regs.
Definition attest_commands (auth : bool) (b : w_box) : list event :=
  Apdu CLA INS_ATTEST 1 (p2 auth) (box_header b ++ TOKEN auth) R ::
  map (fun c => Apdu CLA INS_ATTEST (fst c) 7 (snd c) R) (box_commands b ++ map (fun i => (0x05, [i])) (frame_numbers b)).
Definition attest_flow (auth : bool) : list shown_text := [(None, str "Confirm Attest Input")] ++ application auth ++ CHOICE.
(** "can attest input": one frame of the box, its amount, no tokens. *)
Definition test_attest (auth : bool) : Prop :=
  let '(flows, answers) := run_test BENCH (attest_commands auth (test_box [] [])) in
  flows = [attest_flow auth] /\ map (fun p => length p) answers = [3; 3; 61]%nat /\
  firstn 43 (last answers []) = box_id bench (described (test_box [] [])) ++ [1; 0] ++ be_bytes 8 1000000000 ++ [0].
Example test_attest_ok : test_attest false /\ test_attest true.
Proof. split; vm_compute; repeat split. Qed.

Definition sign_test (auth : bool) (w : w_tx) : list (list shown_text) * list bytes :=
  run_test BENCH (concat (map (fun x => attest_commands auth (fst x)) (w_inputs w)) ++
                  sign_requests bench TOY_KEY w (p2 auth) ([0] ++ path_bytes (ADDRESS 0) ++ TOKEN auth) 7 R).
(** signTxFlows: payment to address 1, change to address [change]. *)
Definition start_flows (auth : bool) : list (list shown_text) :=
  [attest_flow auth; [(Some (str "P2PK Signing"), path_text 0)] ++ (if auth then [] else [(Some (str "Application"), str "0x00000000")]) ++ CHOICE].
Definition sign_flows (auth : bool) (change : N) (tokens_to tokens_tx : list shown_text) : list (list shown_text) :=
  start_flows auth ++
  [[(None, str "Confirm Output"); (Some (str "Address"), address_at 1); (Some (str "Output Value"), str "0.100000000 ERG")] ++ tokens_to ++ CHOICE] ++
  (if 19 <=? change then [[(None, str "Confirm Output"); (Some (str "Change"), path_text change)] ++ CHOICE] else []) ++
  [[(None, str "Approve Signing"); (Some (str "P2PK Path"), path_text 0); (Some (str "Transaction Amount"), str "0.100000000 ERG");
    (Some (str "Transaction Fee"), str "0.001000000 ERG")] ++ tokens_tx ++ CHOICE].
Definition data_box (index : N) : bytes := box_id bench (described (mk_wb NO_TX index 100000000 0 (tree_at 0) [] [])).
Definition test_tx (b : w_box) (ids : list bytes) (data : list bytes) (change : N) (tokens_to : list (N * N)) : w_tx :=
  mk_wtx ids [(b, [])] data
    [mk_wo 100000000 0 (SD_TREE (tree_at 1)) tokens_to []; mk_wo 899000000 0 (SD_CHANGE (ADDRESS change)) [] []; mk_wo 1000000 0 SD_FEE [] []].
Definition signs (w : w_tx) (change : N) (tokens_to tokens_tx : list shown_text) (signature : N) : Prop :=
  forall auth, let '(flows, answers) := sign_test auth w in
  flows = sign_flows auth change tokens_to tokens_tx /\ last answers [] = be_bytes 56 signature ++ [0x90; 0].
(** ellipsize (common.js): 26 digits at each end. *)
Definition id_text (id : bytes) : text := let t := SpecText.hex_text id in firstn 26 t ++ str "..." ++ skipn 38 t.
Definition ONES : bytes := repeat 0x11 32.
Definition token (k : string) (id : bytes) (value : string) : list shown_text :=
  [(Some (str ("Token [" ++ k ++ "]")%string), id_text id); (Some (str ("Token [" ++ k ++ "] Value")%string), str value)].
Definition PLAIN : w_box := test_box [] [].
(** Registers R4, the Int 123, and R5, five bytes. *)
Definition WITH_REGISTERS : w_box := test_box [] [2; 0x04; 0xf6; 0x01; 0x0e; 5; 1; 2; 3; 4; 5].
Definition holding (n : N) : w_box := test_box [(ONES, n)] [].
Definition id_of (b : w_box) : bytes := box_id bench (described b).
(** The signatures are those of the nonce [NONCE]; that they verify was checked with the group
    law of secp256k1 outside of Coq, for the message and the tree of Ergo's signatures. *)
Ltac passes := intros []; vm_compute; split; reflexivity.
Example test_sign : signs (test_tx PLAIN [] [data_box 1] 2 []) 2 [] [] 0x122ea05768dae77a6173a6e398c6c8768ba0baa5a09575b3941cf65ad530e5489b74dae2180f3fa07a0511d07d32e4c90d9c184b40b15a79.
Proof. passes. Qed.
Example test_sign_change_22 : signs (test_tx PLAIN [] [data_box 1] 22 []) 22 [] [] 0xc2677d4f2bc7abcc12d8bd933156a7ee61f30a21b3d63dab20dff7f77628308ae17259b1c69f62325ab3cd532fd2c975b48c2aa9992234ef.
Proof. passes. Qed.
(** The test has the id of this box. *)
Example test_sign_registers_id : id_of WITH_REGISTERS = be_bytes 32 0xef16f4a6db61a1c31aea55d3bf10e1fb6443cf08cff4a1cf2e3a4780e1312dba.
Proof. vm_compute. reflexivity. Qed.
Example test_sign_registers : signs (test_tx WITH_REGISTERS [] [] 2 []) 2 [] [] 0x151cbe8b74baaebf0af39ab38a2bf7a77f20dcce643f21fe2190f05d10eedd0470373f8b359afa230cbffedac8e7e5ff0c5e221d1e1dc3b0.
Proof. passes. Qed.
Example test_sign_no_data : signs (test_tx PLAIN [] [] 2 []) 2 [] [] 0xfb097b9dce3ca4403937fd71ed18e1f5a63df5e642f0a9127759dc0bc41faca710a6c21e5f2183a286fe3f84761a4cde7a1e1cf5fca5f4ea.
Proof. passes. Qed.
Example test_sign_tokens : signs (test_tx (holding 1000) [ONES] [data_box 0] 2 [(0, 1000)]) 2 (token "1" ONES "1000") []
  0x269fa8a5c3ad54a6955fe428965599ef031121612686a06442b256d2035fa9e0dc607711d0d7ce005b3908e813e19f1ca3985eb41f4ff0e6.
Proof. passes. Qed.
Example test_sign_burned : signs (test_tx (holding 1000) [] [data_box 0] 2 []) 2 [] (token "1" ONES "Burning: 1000")
  0xee07acd997dd8d780a491019734c9951b011f22993c2562e347379117bc7eb8bad7c9221b99e92b45196b5e5eb56fc4aa92dfc39ed2247f3.
Proof. passes. Qed.
Example test_sign_minted : signs (test_tx PLAIN [id_of PLAIN] [data_box 0] 2 [(0, 1000)]) 2 (token "1" (id_of PLAIN) "1000") (token "1" (id_of PLAIN) "Minting: 1000")
  0x6717204052cc5212e5342256cef13fcd21a7f4e4182bfe9e1b1bf37a6e330aff3a6161117c414d97e8dfa381918c6e45ba2de02d4c013529.
Proof. passes. Qed.
Definition MINT : bytes := id_of (holding 1234).
Example test_sign_few_ids :
  signs (test_tx (holding 1234) [MINT] [data_box 0] 2 [(0, 5678)]) 2 (token "1" MINT "5678") (token "1" MINT "Minting: 5678" ++ token "2" ONES "Burning: 1234")
  0xb4923f3893777be1bd5c85e626e8b966687b858ac92cafed788da0dcfd6c602eeab1a183f239bb22512493ff2b593b53be243a015d569442.
Proof. passes. Qed.
(** "can not sign tx with zero inputs", "with zero outputs": the second command of the signing
    is refused. *)
Definition refused (inputs : list (w_box * bytes)) (outputs : list w_output) (flows : bool -> list (list shown_text)) (sw : N) : Prop :=
  forall auth, let w := mk_wtx [] inputs [data_box 0] outputs in
  let '(fs, answers) := run_test BENCH (concat (map (fun x => attest_commands auth (fst x)) inputs) ++
    firstn 2 (sign_requests bench TOY_KEY w (p2 auth) ([0] ++ path_bytes (ADDRESS 0) ++ TOKEN auth) 7 R)) in
  fs = flows auth /\ last answers [] = be_bytes 2 sw.
Example test_no_outputs : refused [(PLAIN, [])] [] start_flows 0xE009.
Proof. passes. Qed.
Example test_no_inputs : refused [] [mk_wo 100000000 0 (SD_TREE (tree_at 1)) [] []] (fun auth => [[(Some (str "P2PK Signing"), path_text 0); (Some (str "Application"), str (if auth then "0x00abcdef" else "0x00000000"))] ++ CHOICE]) 0xE008.
Proof. passes. Qed.

(** Generated by tools/gen_parser.py from /repo/src/compiler/autogen_copy/asn_compiler.hpp: the tables of asn1_parser. *)
From Coq Require Import List ZArith FSets.FMapPositive.
From Verif Require Import Base Parser.
Local Open Scope Z_scope.
(** line 9900 *)
Definition yypact : list Z := [
  -86; -663; 173; -86; 35; 75; -663; -663; 242; 19; -663; 73; -663; 87; 162; -663; -663; 136; 19; -663; -663; -663; 158; 132; -663; -663;
  193; 224; 240; 246; -663; -663; 355; 307; 221; -663; -663; -663; 293; 248; 244; -663; -663; -663; 307; 243; -663; 343; -663; 221; -663;
  222; -663; -1; -663; 309; 245; -663; -663; 252; 253; -663; -663; 273; -663; 348; 199; 199; -663; -663; 199; 280; -663; 264; 199; -663;
  -15; -663; -663; -663; -663; -663; -663; -663; -663; 199; -663; -663; -663; 2747; 3444; -663; -663; -663; -663; -86; -663; -663; -663;
  -663; -663; 304; -663; -663; 305; 287; -663; -663; -663; 322; 294; -663; -663; -663; -663; -663; 332; 296; -663; -663; 357; -663; 321;
  -663; -663; -663; -663; -663; -6; 0; -663; -663; -663; -663; -663; -663; -663; -663; -663; -663; 3543; 4042; 411; -663; 290; -663; -663;
  314; -663; -663; 3642; 299; -663; -663; 316; -663; -663; 317; 184; -663; -663; -663; -663; -663; -663; -663; -663; -663; -663; -663;
  -663; -663; -663; -663; -663; 2850; -663; -663; -663; -663; -663; -663; -663; -663; -663; -663; -663; -663; -663; -663; -663; -663; 122;
  315; 308; 4141; 187; -5; 311; -663; 323; 324; -663; 300; -663; -50; 43; 300; -663; -663; 4141; 326; 2549; 1557; 366; 367; 4141; 2648;
  370; 371; 336; -663; -663; -663; 290; -663; -663; 326; 330; -663; 88; -663; 27; -663; 320; -663; 329; 326; -41; 335; 20; 328; 338; 3543;
  188; 328; 1813; 349; -663; 4141; 4141; 326; 36; 4141; 18; 190; 2443; 452; 34; -663; 300; -663; 352; -663; 341; 4141; 350; -663; 356; 346;
  -663; 354; 347; -663; -663; 358; 94; -663; 354; 326; -663; 3745; -663; 397; 350; -663; 2; 24; 362; 351; -663; -663; -663; -663; -663;
  -663; -663; -663; 432; -7; 455; 4141; 458; -663; 326; -663; -663; 2443; 479; -663; 310; 1682; 1938; 96; 375; 377; -663; -663; -663; -663;
  -663; -663; -663; 326; -663; -663; -663; 350; -663; -663; 365; -44; -33; -10; 1; -663; 432; 449; -663; 72; -663; 4141; -663; 395; 390;
  -663; -663; -663; -663; -663; -663; 398; 383; 4141; 4141; 326; -663; -663; 400; 4141; 4141; 201; 26; -663; 4042; 199; -663; -663; -663;
  -663; 39; -663; -663; -663; 385; -663; -663; 326; 2443; 385; -663; -663; -663; -663; -663; -663; 401; -663; 2443; 209; -663; -663; 2443;
  -663; 144; 171; -663; 381; -663; 403; 392; 326; 178; 146; 404; 399; -663; -663; -663; -663; 103; 405; 1938; -663; 326; 326; 385; -663;
  326; -663; -663; 2443; -663; -663; 98; 416; -663; -663; 146; 408; 409; -663; 34; 427; 34; -663; -663; -663; 429; 117; -663; 430; -663;
  -47; 326; 2293; -663; -663; -46; 41; 410; -663; 300; 4141; 421; 759; -663; 759; -663; -663; 2949; 2194; -663; 433; 12; 2443; -663; 146;
  -663; 326; 436; 426; 439; 428; 441; 422; 1813; 443; 450; -663; -663; 2194; -663; -663; 2194; -663; 326; 30; -663; 11; 326; -663; 326;
  -663; -663; 326; -663; 326; -663; 4240; 3048; 43; 125; -663; -663; 32; -663; -663; -663; -663; -663; -663; -663; -663; -663; -663; -663;
  442; 328; 146; 146; 146; 1083; 569; -663; 1813; 2443; 2443; 2443; 2443; 2443; 333; 9; 460; 146; 328; 424; -663; 462; -663; -663; 55;
  -663; 300; 61; 451; -663; -663; 5; -663; -663; 350; -663; 453; 465; -663; 326; 3147; -663; 347; -663; -663; 350; -663; -663; 3844; 549;
  146; -663; -663; 59; -663; 1938; -663; 471; -663; 114; 134; -663; 469; -663; 461; -10; -663; -663; 499; -663; -663; -663; -663; 38; -18;
  74; -18; 40; 481; 201; -663; 4141; -663; -663; -663; -663; -663; 146; 472; -663; 146; 146; 146; 146; 146; -663; -663; -663; -663; 475;
  -663; 476; 478; 300; 2443; 470; -663; -663; -663; 473; 477; -663; 483; -663; 480; 487; 241; 468; 2443; 142; 491; 482; 326; -663; 485;
  488; 492; -663; -663; 422; -663; 1938; -663; 29; -663; -663; -663; -663; 48; 56; 56; -663; -663; -663; 514; -663; -663; 326; -663; -663;
  -663; -663; 497; 146; 300; 3246; 3943; 2411; -663; 33; 146; -663; 300; -663; 300; -663; -663; 81; 1938; 488; 300; 300; -663; -663; 1432;
  -663; -663; -663; -663; -663; 349; -663; -663; 759; -663; -663; -663; 501; 300; 498; -663; 500; 1432; -663; 146; 495; 504; -663; -663;
  -663; -663; -663; -663; -663; 492; -663; 4809; 4897; -663; 502; -663; -663; 401; -663; -663; 304; -663; -663; -663; 305; 287; -663; -663;
  -663; -663; 2443; -663; -663; -663; -663; -663; 322; -663; -663; -663; 294; -663; -663; -663; -663; -663; -663; -663; -663; -663; -663;
  -663; -663; 332; -663; 212; -663; -663; -663; -663; -663; 357; 321; -663; -663; -663; -663; -663; -663; -663; -663; -663; -663; -663; -6;
  0; -663; -663; -663; -663; -663; -663; -663; -663; 503; -663; -663; -663; -663; -663; 98; 2069; -663; 506; 1285; -663; -663; 326; 146;
  -663; -663; -663; 4713; -663; 300; 3345; 146; -663; -663; 490; -663; -663; -663; -663; -663; -663; -663; -663; -663; -663; -663; -663;
  -663; -663; -663; -663; -663; -663; -663; -663; -663; -663; -663; -663; -663; -663; -663; -663; -663; -663; -663; -663; -663; -663; 4713;
  -663; 4479; -663; -663; -663; 4362; -663; 507; 517; 4596; -663; -663; -663; -663; 3943; -663; -663; 509; 3943].
(** line 9993 *)
Definition yydefact : list Z := [
  0; 500; 0; 2; 0; 147; 1; 3; 158; 0; 144; 145; 146; 0; 162; 155; 498; 0; 150; 153; 154; 152; 368; 0; 149; 157; 0; 0; 0; 164; 148; 151; 0;
  0; 377; 161; 159; 160; 0; 0; 0; 378; 379; 375; 0; 0; 163; 0; 156; 377; 374; 169; 376; 171; 143; 173; 0; 497; 499; 0; 170; 181; 183; 184;
  186; 0; 175; 0; 168; 167; 0; 0; 4; 0; 174; 176; 0; 191; 193; 194; 95; 96; 97; 98; 165; 187; 189; 190; 192; 0; 0; 182; 185; 172; 177; 0;
  188; 68; 11; 217; 312; 0; 391; 284; 0; 0; 385; 387; 388; 0; 0; 382; 228; 392; 393; 394; 0; 287; 395; 396; 0; 234; 0; 373; 397; 304; 372;
  380; 0; 0; 399; 398; 383; 386; 10; 400; 247; 401; 402; 403; 0; 0; 353; 497; 0; 112; 67; 0; 83; 233; 0; 0; 216; 229; 0; 214; 197; 195; 0;
  212; 219; 230; 226; 237; 218; 236; 232; 240; 241; 242; 243; 221; 215; 244; 347; 0; 235; 239; 231; 238; 225; 227; 245; 222; 246; 223; 224;
  220; 389; 390; 213; 406; 84; 0; 0; 0; 0; 196; 0; 178; 179; 305; 404; 0; 381; 0; 0; 0; 360; 311; 0; 0; 0; 0; 0; 0; 0; 0; 0; 0; 0; 497; 13;
  6; 8; 12; 14; 209; 0; 7; 499; 111; 0; 104; 0; 108; 107; 110; 184; 0; 359; 0; 0; 0; 0; 0; 0; 0; 405; 0; 0; 348; 0; 0; 0; 0; 0; 0; 0; 180;
  0; 344; 0; 340; 341; 0; 493; 303; 0; 296; 300; 302; 501; 114; 8; 0; 0; 289; 0; 333; 334; 0; 470; 0; 493; 313; 326; 329; 0; 315; 324; 293;
  294; 458; 452; 453; 454; 384; 0; 312; 0; 0; 0; 286; 0; 460; 467; 0; 0; 285; 0; 0; 0; 455; 130; 0; 417; 119; 120; 121; 456; 199; 117; 471;
  449; 457; 451; 493; 416; 418; 419; 422; 0; 424; 0; 427; 0; 430; 438; 440; 441; 0; 442; 0; 462; 444; 445; 443; 446; 447; 448; 198; 0; 0;
  0; 337; 338; 335; 0; 0; 0; 0; 0; 103; 0; 0; 352; 357; 358; 356; 0; 24; 25; 26; 93; 86; 102; 99; 0; 113; 261; 253; 254; 255; 266; 267;
  251; 272; 0; 276; 270; 273; 0; 259; 497; 499; 206; 233; 257; 0; 202; 204; 205; 0; 271; 269; 249; 260; 250; 252; 198; 0; 0; 211; 350; 349;
  94; 207; 346; 69; 85; 0; 251; 276; 275; 499; 262; 274; 210; 0; 0; 369; 370; 0; 363; 365; 366; 367; 368; 0; 307; 0; 339; 0; 248; 0; 299;
  295; 0; 0; 0; 288; 0; 0; 322; 0; 327; 0; 330; 314; 0; 0; 423; 0; 140; 0; 472; 490; 491; 0; 476; 90; 0; 88; 0; 0; 0; 0; 0; 435; 434; 0;
  437; 436; 0; 431; 459; 0; 463; 0; 409; 413; 410; 414; 336; 407; 411; 408; 412; 29; 0; 0; 0; 16; 18; 33; 19; 20; 21; 22; 23; 501; 9; 105;
  106; 354; 355; 0; 0; 101; 256; 282; 0; 0; 200; 0; 0; 0; 0; 0; 0; 0; 0; 0; 100; 0; 0; 370; 0; 361; 364; 0; 306; 0; 0; 342; 345; 495; 0;
  494; 492; 493; 301; 0; 0; 290; 332; 0; 450; 455; 328; 331; 493; 325; 433; 129; 0; 141; 475; 473; 0; 474; 0; 87; 0; 439; 0; 0; 132; 0;
  415; 420; 425; 428; 469; 0; 468; 461; 464; 208; 49; 36; 36; 36; 53; 55; 0; 30; 0; 31; 28; 351; 27; 268; 283; 0; 203; 277; 263; 279; 278;
  280; 264; 265; 281; 362; 0; 308; 0; 0; 0; 0; 297; 292; 291; 323; 320; 316; 128; 111; 125; 0; 0; 110; 0; 0; 0; 0; 480; 485; 91; 89; 137;
  134; 138; 131; 0; 201; 0; 465; 0; 47; 46; 34; 35; 45; 40; 40; 52; 51; 50; 0; 15; 17; 32; 258; 371; 309; 310; 343; 496; 0; 0; 0; 0; 122;
  0; 142; 477; 0; 479; 0; 484; 482; 489; 0; 137; 0; 0; 133; 421; 0; 70; 48; 71; 72; 73; 0; 43; 42; 0; 38; 41; 37; 0; 0; 298; 321; 317; 0;
  124; 123; 497; 0; 481; 487; 488; 486; 483; 92; 136; 135; 139; 24; 25; 503; 504; 505; 506; 251; 508; 509; 510; 391; 284; 272; 514; 515;
  516; 517; 518; 519; 520; 385; 387; 523; 524; 388; 526; 527; 528; 529; 530; 531; 532; 533; 534; 382; 286; 537; 538; 539; 540; 541; 542;
  543; 544; 276; 546; 547; 548; 549; 550; 551; 552; 553; 373; 270; 556; 557; 558; 559; 560; 304; 372; 380; 564; 565; 566; 567; 568; 569;
  570; 383; 386; 285; 574; 575; 576; 577; 273; 66; 275; 0; 79; 0; 0; 77; 80; 81; 82; 65; 44; 39; 64; 54; 0; 0; 82; 478; 75; 0; 76; 78; 504;
  507; 510; 511; 512; 513; 514; 515; 520; 521; 522; 525; 526; 530; 535; 536; 543; 545; 551; 552; 554; 555; 561; 562; 563; 564; 565; 571;
  572; 573; 574; 578; 64; 502; 64; 56; 59; 58; 0; 62; 318; 0; 64; 5; 57; 61; 63; 0; 74; 60; 319; 0].
(** line 10086 *)
Definition yypgoto : list Z := [
  -663; 644; -663; -663; -136; -663; -129; -663; 407; -663; -663; 57; -476; 86; -663; -663; -663; -192; -663; -3; -663; -663; -663; -663;
  -663; -663; -663; -663; -205; -563; -663; -663; -663; -662; -457; -663; -22; -663; -663; -663; -663; -663; -150; -146; 102; -663; -663;
  419; -663; 505; -663; -663; -663; -663; -663; 578; -663; 312; -663; 104; -663; -663; -663; -663; -663; -663; -663; -663; -663; -663; 28;
  -13; -4; -663; -663; -663; -663; -663; -663; 659; -663; 648; -663; -663; -663; -663; -663; -663; -663; -663; -663; -663; 607; -663; 629;
  615; -120; 601; -663; -663; -72; -663; -663; -414; -663; -663; -663; -663; -663; -663; 374; -663; -188; -229; -253; -663; -663; 3; -663;
  -663; -169; -663; -663; -187; -155; -663; -663; 16; -432; -663; -663; -663; 145; -663; -663; -663; 474; -543; -442; -663; -663; -663;
  -663; -663; -663; 77; -663; -663; -663; -663; -663; -663; -663; -663; -663; -95; -663; 71; 151; -663; -663; -663; 682; -663; 645; 654;
  -663; -663; -663; -663; 420; -663; -663; -663; -663; -663; -663; -663; -663; -663; -127; -663; -663; -280; -292; -663; -663; 218; -663;
  220; -663; 369; -663; -663; 247; -663; -430; -663; -663; -663; -663; -663; -663; 121; -121; -663; -663; -663; -663; -663; -338; -663;
  -663; -663; -663; -663; -663; -258; -663; 325; -9; 530; 10; -356; -663].
(** line 10114 *)
Definition yydefgoto : list Z := [
  -1; 2; 3; 815; 396; 223; 144; 77; 225; 226; 502; 503; 373; 416; 504; 505; 600; 655; 506; 702; 507; 508; 699; 509; 652; 510; 660; 662;
  858; 859; 860; 861; 862; 863; 145; 146; 693; 694; 695; 805; 696; 806; 807; 808; 147; 148; 78; 314; 472; 149; 79; 80; 81; 82; 83; 150;
  232; 233; 234; 235; 151; 152; 153; 154; 315; 316; 317; 632; 318; 577; 578; 687; 643; 319; 65; 4; 10; 11; 12; 17; 18; 19; 20; 14; 29; 39;
  54; 55; 59; 67; 73; 74; 75; 199; 76; 61; 62; 84; 85; 155; 398; 156; 321; 399; 400; 157; 322; 86; 87; 88; 323; 159; 287; 427; 403; 404;
  405; 413; 522; 160; 406; 161; 276; 267; 407; 162; 268; 269; 270; 163; 164; 439; 440; 165; 166; 167; 288; 289; 290; 168; 169; 170; 171;
  262; 263; 264; 172; 173; 174; 175; 240; 517; 370; 176; 259; 433; 434; 435; 436; 437; 177; 178; 408; 34; 45; 43; 179; 180; 181; 182; 409;
  183; 184; 185; 186; 187; 188; 189; 190; 191; 248; 327; 328; 329; 330; 331; 332; 333; 334; 335; 336; 462; 481; 484; 337; 338; 339; 340;
  341; 342; 343; 587; 344; 588; 345; 346; 347; 348; 569; 571; 637; 638; 683; 684; 718; 349; 350; 446; 550; 197; 193; 410; 198; 229; 811].
(** line 10142 *)
Definition yytable : list Z := [
  22; 214; 218; 428; 222; 231; 512; 215; 219; 22; 5; 224; 224; 5; 626; 261; 552; 402; 563; 473; 277; 236; 280; 15; 592; 560; 454; 561; 356;
  804; 56; 419; 474; 419; 291; 292; 293; 294; 431; 295; 419; 296; 602; 515; 324; 291; 292; 804; 419; 95; 297; 97; 455; 367; 467; 419; 597;
  586; 325; 431; 371; 372; 579; 1; 558; 618; 566; -429; -426; 477; 273; 653; 266; 98; 457; 545; 551; 274; 482; 479; 21; 210; 598; 71; 282;
  -196; 8; 216; 650; 21; 658; 456; -498; 303; 512; 654; 211; 252; 697; 194; 16; -426; 211; 16; 16; 200; 700; 222; 213; 584; 715; 606; 480;
  458; 224; 368; -450; 224; 212; -116; 213; 599; 70; -450; 217; 519; 213; 651; 213; 659; 708; 213; 533; 252; 369; 520; -429; 698; 213; 521;
  309; 320; 324; 324; 804; 701; 621; 483; 57; 58; 228; 228; 363; 691; 134; 586; 325; 325; 511; 58; 585; 58; 25; 653; 364; 491; 493; 57;
  534; 16; 716; 496; 498; 6; 717; 511; 512; 466; 1; 559; 58; 636; 712; 1; 230; 57; 432; 654; 1; 58; 1; 58; 272; 692; 265; -466; 271; 26;
  278; 9; 870; 281; -466; 281; 1; 58; 23; 281; 281; 16; 1; 58; 567; -498; -498; 803; 275; 692; -498; 451; -497; 27; -497; 352; -497; 499;
  500; -118; 231; 501; 563; 452; 28; 803; -497; 224; -497; -498; -498; 320; 320; 531; 542; 324; 236; 514; -116; 402; -196; 438; 595; 441;
  642; 228; 543; 546; 411; 325; 13; 645; 252; 30; 596; -196; 16; 555; 430; 678; 430; 604; 813; 646; 33; 607; 608; 609; 610; 611; -166; 679;
  640; -275; 53; 526; 32; -275; 324; 527; 324; -275; 549; 528; 324; 622; 554; 868; 402; 523; 516; 35; 325; -498; 325; 868; 627; 247; 325;
  38; 256; 378; 213; 421; 324; 213; 213; 324; 213; 430; 324; -274; 512; 352; 352; -274; 41; 42; 325; 374; 874; 325; 36; 379; 325; 207;
  -287; -287; 207; 538; -287; 540; 320; 713; 568; 714; 281; 281; 37; 224; 57; 58; 281; 281; 371; 372; 469; 470; 690; 612; 613; 15; 537; 44;
  537; 590; 46; 594; -126; 213; 670; 47; 224; 48; 274; 547; 228; 563; 50; 553; 63; 51; 430; 66; 677; 320; 552; 320; 869; 68; 430; 320; 70;
  63; 89; 719; 69; 63; 224; 71; 430; 63; 656; 657; 430; 324; 72; 92; 93; 201; 202; 320; 89; 203; 320; 204; 192; 320; 324; 325; 205; 206;
  207; 711; 352; 438; 209; 438; 208; 239; 241; 629; 325; 430; 261; 563; 265; 242; 224; 245; 810; 271; 246; -115; 430; 278; 430; 253; 254;
  258; 260; 257; 16; 281; 213; 353; 354; 352; 818; 359; 360; 430; 361; 365; 311; 158; 196; 430; 238; 430; 362; 537; -109; 352; 619; 412;
  419; 430; 366; 442; 443; 324; 449; 447; 445; 448; 453; -500; 411; 459; 460; 520; 461; 352; 468; 325; 352; 463; 450; 430; 465; 475; 320;
  476; 478; 291; 292; 293; 294; -432; 295; 228; 296; 275; 682; 320; 227; 237; 324; 546; 487; 297; 488; 489; -118; 518; 244; 494; -262;
  -312; 524; 525; 325; 324; 430; 558; 441; 411; 430; 430; 430; 430; 430; 529; 523; 532; 530; 325; 535; 536; 281; 251; 810; 430; 539; 810;
  430; 541; 544; 565; 557; 511; 570; 639; 303; 572; 573; 574; 576; 644; 575; 255; 580; 601; 581; 605; 58; 634; 320; 417; 584; 420; 623;
  429; 352; 64; 279; 614; 286; 615; 620; 635; 355; 286; 624; 641; 647; 430; 64; 90; 648; 665; 64; 661; 666; 667; 64; 668; 676; 671; -127;
  309; 672; 265; 675; 320; 673; 90; 680; 377; 704; 681; 401; 674; 685; 414; 415; 814; 686; 418; 320; 819; 688; 430; 429; 326; 705; 816;
  -501; 817; 865; 444; -11; -10; 872; 821; 871; 430; 875; 7; 559; 58; 376; 866; 710; 663; 703; 444; 823; 820; 352; 214; 218; 375; 271; 281;
  281; 215; 219; 630; 195; 631; 639; 64; 639; 720; 689; 464; 513; 31; 644; 722; 40; 94; 60; 721; 352; 91; 96; 706; 617; 238; 63; 358; 616;
  24; 52; 352; 265; 669; 49; 582; 812; 352; 0; 429; 583; 485; 649; 0; 564; 0; 430; 0; 0; 429; 0; 486; 0; 429; 0; 352; 0; 0; 0; 0; 0; 0; 0;
  490; 492; 0; 0; 326; 326; 495; 497; 0; 0; 0; 237; 0; 0; 0; 0; 351; 0; 0; 429; 0; 0; 0; 0; 397; 430; 0; 0; 0; 0; 0; 0; 0; 0; 426; 0; 291;
  292; 293; 294; 0; 295; 0; 296; 0; 0; 0; 0; 0; 0; 0; 0; 297; 0; 0; 0; 0; 0; 0; 0; 0; 351; 0; 429; 0; 0; 558; 0; 0; 0; 0; 0; 0; 0; 0; 0; 0;
  0; 0; 0; 271; 281; 0; 0; 0; 426; 352; 0; 0; 352; 0; 0; 548; 0; 0; 303; 0; 0; 0; 0; 556; 0; 0; 0; 0; 326; 0; 286; 0; 0; 0; 0; 0; 0; 351;
  351; 0; 0; 0; 0; 429; 0; 0; 401; 429; 429; 429; 429; 429; 0; 0; 0; 0; 0; 0; 281; 0; 0; 0; 281; 0; 0; 309; 0; 0; 0; 591; 593; 326; 0; 326;
  0; 0; 0; 326; 0; 426; 0; 0; 0; 0; 0; 0; 192; 0; 0; 426; 64; 64; 0; 426; 0; 401; 351; 326; 0; 0; 326; 0; 0; 326; 559; 58; 0; 0; 0; 0; 0;
  0; 0; 0; 0; 0; 0; 0; 0; 0; 0; 0; 426; 0; 0; 0; 0; 286; 0; 0; 0; 0; 0; 0; 0; 633; 0; 0; 351; 0; 0; 0; 429; 0; 0; 0; 0; 0; 0; 0; 0; 0; 0;
  0; 0; 0; 429; 0; 351; 0; 351; 0; 0; 0; 0; 0; 426; 0; 664; 0; 0; 351; 0; 0; 0; 351; 0; 397; 0; 0; 0; 351; 0; 351; 0; 0; 0; 351; 326; 0; 0;
  0; 0; 0; 0; 429; 0; 420; 0; 0; 0; 326; 0; 0; 0; 0; 0; 351; 0; 0; 351; 0; 0; 351; 0; 589; 0; 0; 0; 0; 0; 0; 0; 426; 0; 0; 397; 426; 426;
  426; 426; 426; 0; 0; 0; 0; 0; 0; 0; 0; 0; 0; 286; 286; 0; 0; 0; 0; 0; 0; 0; 0; 0; 0; 0; 0; 0; 0; 589; 0; 0; 809; 589; 429; 326; 0; 0;
  351; 0; 0; 351; 0; 0; 0; 0; 0; 0; 0; 0; 809; 0; 0; 0; 291; 292; 380; 381; 0; 382; 0; 383; 0; 0; 0; 0; 0; 0; 0; 351; 297; 0; 326; 0; 384;
  385; 0; 0; 0; 0; 98; 0; 351; 0; 422; 0; 0; 326; 0; 0; 387; 0; 0; 426; 0; 0; 0; 388; 0; 0; 0; 0; 0; 0; 0; 0; 0; 426; 0; 0; 0; 0; 0; 303;
  0; 0; 0; 0; 0; 0; 0; 0; 0; 0; 0; 0; 423; 0; 0; 0; 0; 0; 0; 0; 0; 0; 0; 0; 0; 390; 0; 0; 0; 0; 809; 351; 426; 809; 0; 0; 0; 0; 0; 0; 0; 0;
  0; 0; 286; 0; 309; 134; 0; 397; 0; 0; 0; 0; 0; 0; 391; 0; 0; 0; 392; 603; 0; 0; 0; 0; 0; 397; 351; 23; 0; 0; 0; 0; 0; 0; 0; 393; 0; 0; 0;
  0; 0; 351; 0; 424; 425; 0; 0; 0; 0; 0; 0; 0; 0; 0; 0; 0; 286; 0; 426; 0; 286; 0; 0; 0; 0; 0; 0; 0; 0; 0; 0; 0; 0; 0; 0; 0; 0; 0; 0; 0; 0;
  0; 0; 0; 0; 0; 0; 0; 0; 0; 0; 0; 0; 0; 0; 0; 0; 0; 0; 0; 291; 292; 380; 381; 0; 382; 0; 383; 0; 0; 0; 0; 0; 0; 0; 0; 297; 0; 97; 397;
  384; 385; 397; 0; 0; 725; 726; 727; 99; 728; 729; 730; 731; 732; 733; 734; 735; 736; 737; 738; 739; 740; 741; 742; 743; 744; 745; 746;
  747; 748; 749; 750; 751; 752; 753; 754; 755; 756; 757; 758; 759; 112; 113; 114; 115; 760; 761; 762; 763; 764; 765; 766; 767; 768; 118;
  769; 770; 771; 772; 119; 773; 121; 774; 775; 776; 777; 778; 779; 780; 781; 124; 782; 783; 784; 785; 786; 787; 788; 789; 790; 791; 130;
  792; 131; 793; 794; 795; 796; 797; 798; 799; 135; 136; 137; 138; 139; 800; 0; 0; 0; 392; 822; 0; 0; 142; 0; 0; 0; 0; 23; 0; 0; 0; 801; 0;
  0; 0; 393; 0; 0; 0; 0; 0; 0; 0; 802; 395; 291; 292; 380; 381; 0; 382; 0; 383; 0; 0; 0; 0; 0; 0; 0; 0; 297; 0; 97; 0; 723; 724; 0; 0; 0;
  725; 726; 727; 99; 728; 729; 730; 731; 732; 733; 734; 735; 736; 737; 738; 739; 740; 741; 742; 743; 744; 745; 746; 747; 748; 749; 750;
  751; 752; 753; 754; 755; 756; 757; 758; 759; 112; 113; 114; 115; 760; 761; 762; 763; 764; 765; 766; 767; 768; 118; 769; 770; 771; 772;
  119; 773; 121; 774; 775; 776; 777; 778; 779; 780; 781; 124; 782; 783; 784; 785; 786; 787; 788; 789; 790; 791; 130; 792; 131; 793; 794;
  795; 796; 797; 798; 799; 135; 136; 137; 138; 139; 800; 0; 0; 0; 392; 0; 0; 0; 142; 291; 292; 293; 294; 23; 295; 0; 296; 801; 0; 0; 0;
  393; 0; 0; 0; 297; 0; 97; 0; 802; 395; 0; 0; 0; 0; 98; 298; 99; 0; 299; 0; 0; 101; 102; 103; 0; 104; 105; 0; 0; 0; 300; 301; 106; 107; 0;
  0; 108; 109; 302; 0; 0; 110; 0; 0; 0; 0; 111; 303; 304; 112; 113; 114; 115; 0; 0; 0; 0; 305; 116; 0; 117; 0; 118; 0; 306; 0; 0; 119; 120;
  121; 122; 0; 123; 0; 307; 0; 0; 0; 124; 0; 125; 126; 127; 128; 129; 308; 211; 0; 0; 130; 0; 131; 132; 133; 309; 134; 0; 0; 0; 135; 136;
  137; 138; 139; 310; 0; 0; 0; 311; 0; 312; 0; 142; 291; 292; 293; 294; 0; 295; 0; 296; 0; 0; 0; 0; 0; 0; 0; 0; 297; 0; 97; 0; 313; 230; 0;
  0; 0; 0; 98; 298; 99; 0; 299; 0; 0; 101; 102; 103; 0; 104; 105; 0; 0; 0; 0; 0; 106; 107; 0; 0; 108; 109; 0; 0; 0; 110; 0; 0; 0; 0; 111;
  303; 304; 112; 113; 114; 115; 0; 0; 0; 0; 305; 116; 0; 117; 0; 118; 0; 306; 0; 0; 119; 120; 121; 122; 0; 123; 0; 307; 0; 0; 0; 124; 0;
  125; 126; 127; 128; 129; 308; 211; 0; 0; 130; 0; 131; 132; 133; 309; 134; 0; 0; 0; 135; 136; 137; 138; 139; 310; 0; 471; 0; 0; 0; 312; 0;
  142; 0; 0; 0; 0; 0; 0; 291; 292; 380; 381; 0; 382; 0; 383; 0; 0; 0; 0; 0; 0; 313; 230; 297; 0; 97; 0; 384; 385; 0; 0; 0; 0; 98; 0; 99; 0;
  386; 0; 0; 101; 102; 103; 387; 104; 105; 0; 0; 0; 0; 388; 106; 107; 0; 0; 108; 109; 0; 0; 0; 110; 0; 0; 0; 0; 111; 303; 0; 112; 113; 114;
  115; 0; 0; 0; 0; 0; 116; 0; 389; 0; 118; 0; 0; 0; 0; 119; 120; 121; 122; 0; 123; 390; 0; 0; 0; 0; 124; 0; 125; 126; 127; 128; 129; 0; 0;
  0; 0; 130; 0; 131; 132; 133; 309; 134; 0; 0; 0; 135; 136; 137; 138; 139; 391; 0; 0; 0; 392; 0; 0; 0; 142; 291; 292; 293; 294; 23; 295; 0;
  296; 0; 0; 0; 0; 393; 0; 0; 0; 297; 0; 97; 0; 394; 395; 0; 0; 0; 0; 98; 298; 99; 0; 299; 0; 0; 101; 102; 103; 0; 104; 105; 0; 0; 0; 0; 0;
  106; 107; 0; 0; 108; 109; 0; 0; 0; 110; 0; 0; 0; 0; 111; 303; 304; 112; 113; 114; 115; 0; 0; 0; 0; 305; 116; 0; 117; 0; 118; 0; 306; 0;
  0; 119; 120; 121; 122; 0; 123; 0; 307; 0; 0; 0; 124; 0; 125; 126; 127; 128; 129; 308; 211; 0; 0; 130; 0; 131; 132; 133; 309; 134; 0; 0;
  0; 135; 136; 137; 138; 139; 310; 0; 0; 0; 0; 0; 312; 0; 142; 0; 0; 0; 0; 0; 0; 291; 292; 380; 381; 0; 382; 0; 383; 0; 0; 0; 0; 0; 0; 313;
  230; 297; 0; 97; 0; 384; 385; 0; 0; 0; 0; 98; 0; 99; 0; 386; 0; 0; 101; 102; 103; 387; 104; 105; 0; 0; 0; 0; 388; 106; 107; 0; 0; 108;
  109; 0; 0; 0; 110; 0; 0; 0; 0; 111; 303; 0; 112; 113; 114; 115; 0; 0; 0; 0; 0; 116; 0; 389; 0; 118; 0; 0; 0; 0; 119; 120; 121; 122; 0;
  123; 390; 0; 0; 0; 0; 124; 0; 125; 126; 127; 128; 129; 0; 0; 0; 0; 130; 0; 131; 132; 133; 309; 134; 0; 0; 0; 135; 136; 137; 138; 139;
  391; 0; 0; 0; 392; 0; 0; 0; 142; 291; 292; 293; 294; 23; 295; 0; 296; 0; 0; 0; 0; 393; 0; 0; 0; 297; 0; 97; 0; 424; 395; 0; 0; 0; 0; 98;
  0; 99; 0; 299; 0; 0; 101; 102; 103; 0; 104; 105; 0; 0; 0; 0; 0; 106; 107; 0; 0; 108; 109; 0; 0; 0; 110; 0; 0; 0; 0; 111; 303; 304; 112;
  113; 114; 115; 0; 0; 0; 0; 305; 116; 0; 117; 0; 118; 0; 306; 0; 0; 119; 120; 121; 122; 0; 123; 0; 307; 0; 0; 0; 124; 0; 125; 126; 127;
  128; 129; 308; 211; 291; 292; 130; 0; 131; 132; 133; 309; 134; 0; 0; 0; 135; 136; 137; 138; 139; 310; 97; 0; 0; 0; 0; 312; 0; 142; 98; 0;
  99; 0; 100; 0; 0; 101; 102; 103; 0; 104; 105; 0; 0; 0; 0; 0; 106; 107; 313; 230; 108; 109; 0; 0; 0; 110; 0; 0; 0; 0; 111; 0; 0; 112; 113;
  114; 115; 0; 0; 0; 0; 0; 116; 0; 117; 0; 118; 0; 0; 0; 0; 119; 120; 121; 122; 0; 123; 0; 0; 0; 0; 0; 124; 0; 125; 126; 127; 128; 129; 0;
  0; 0; 0; 130; 0; 131; 132; 133; 0; 134; 0; 0; 0; 135; 136; 137; 138; 139; 0; 0; 291; 292; 380; 381; 0; 382; 142; 383; 0; 0; 0; 0; 0; 0;
  0; 0; 297; 0; 97; 0; 384; 385; 0; 0; 0; 0; 98; 143; 230; 0; 422; 0; 291; 292; 380; 381; 387; 382; 0; 383; 0; 0; 0; 388; 0; 0; 0; 0; 297;
  0; 0; 0; 384; 385; 0; 0; 0; 0; 98; 303; 0; 0; 422; 0; 0; 0; 0; 0; 387; 0; 0; 0; 423; 0; 0; 388; 0; 0; 0; 0; 0; 0; 0; 0; 0; 390; 0; 0; 0;
  0; 0; 303; 0; 0; 0; 0; 0; 0; 0; 0; 0; 0; 0; 0; 423; 0; 309; 134; 0; 0; 0; 0; 0; 0; 0; 0; 391; 390; 0; 0; 709; 0; 0; 0; 0; 0; 0; 0; 0; 23;
  0; 0; 0; 0; 0; 0; 0; 393; 309; 134; 0; 0; 0; 0; 0; 424; 425; 0; 391; 0; 0; 0; 392; 0; 0; 0; 97; 0; 0; 0; 0; 23; 0; 0; 98; 0; 99; 0; 100;
  393; 0; 101; 102; 103; 0; 104; 105; 424; 425; 283; 0; 0; 106; 107; 0; 0; 108; 109; 0; 0; 0; 110; 0; 0; 0; 0; 111; 0; 0; 112; 113; 114;
  115; 0; 0; 0; 0; 0; 116; 0; 117; 0; 118; 0; 0; 0; 0; 119; 120; 121; 122; 0; 123; 0; 0; 0; 0; 0; 124; 0; 125; 126; 127; 128; 129; 0; 0; 0;
  0; 130; 0; 131; 132; 133; 0; 134; 0; 0; 0; 135; 136; 137; 138; 139; 0; 97; 284; 0; 0; 285; 0; 0; 142; 98; 0; 99; 0; 100; 0; 0; 101; 102;
  103; 0; 104; 105; 0; 0; 283; 0; 0; 106; 107; 143; 16; 108; 109; 0; 0; 0; 110; 0; 0; 0; 0; 111; 0; 0; 112; 113; 114; 115; 0; 0; 0; 0; 0;
  116; 0; 117; 0; 118; 0; 0; 0; 0; 119; 120; 121; 122; 0; 123; 0; 0; 0; 0; 0; 124; 0; 125; 126; 127; 128; 129; 0; 0; 0; 0; 130; 0; 131;
  132; 133; 0; 134; 0; 0; 0; 135; 136; 137; 138; 139; 0; 97; 284; 0; 0; 357; 0; 0; 142; 98; 0; 99; 0; 100; 0; 0; 101; 102; 103; 0; 104;
  105; 0; 0; 0; 0; 0; 106; 107; 143; 16; 108; 109; 0; 0; 0; 110; 0; 0; 0; 0; 111; 0; 0; 112; 113; 114; 115; 0; 0; 0; 0; 0; 116; 0; 117; 0;
  118; 0; 0; 0; 0; 119; 120; 121; 122; 0; 123; 0; 0; 0; 0; 0; 124; 0; 125; 126; 127; 128; 129; 0; 0; 0; 0; 130; 0; 131; 132; 133; 0; 134;
  0; 0; 0; 135; 136; 137; 138; 139; 0; 140; 0; 0; 141; 97; 0; 0; 142; 0; 0; 0; 0; 98; 0; 99; 0; 100; 0; 0; 101; 102; 103; 0; 104; 105; 0;
  0; 0; 143; 16; 106; 107; 0; 0; 108; 109; 0; 0; 0; 110; 0; 249; 0; 0; 111; 0; 0; 112; 113; 114; 115; 0; 250; 0; 0; 0; 116; 0; 117; 0; 118;
  0; 0; 0; 0; 119; 120; 121; 122; 0; 123; 0; 0; 0; 0; 0; 124; 0; 125; 126; 127; 128; 129; 0; 0; 0; 0; 130; 0; 131; 132; 133; 0; 134; 0; 0;
  0; 135; 136; 137; 138; 139; 0; 97; 0; 0; 0; 0; 0; 0; 142; 98; 0; 99; 0; 100; 0; 0; 101; 102; 103; 0; 104; 105; 0; 0; 283; 0; 0; 106; 107;
  143; 16; 108; 109; 0; 0; 0; 110; 0; 0; 0; 0; 111; 0; 0; 112; 113; 114; 115; 0; 0; 0; 0; 0; 116; 0; 117; 0; 118; 0; 0; 0; 0; 119; 120;
  121; 122; 0; 123; 0; 0; 0; 0; 0; 124; 0; 125; 126; 127; 128; 129; 0; 0; 0; 0; 130; 0; 131; 132; 133; 0; 134; 0; 0; 0; 135; 136; 137; 138;
  139; 0; 97; 562; 371; 372; 0; 0; 0; 142; 98; 0; 99; 0; 100; 0; 0; 101; 102; 103; 0; 104; 105; 0; 0; 0; 0; 0; 106; 107; 143; 16; 108; 109;
  0; 0; 0; 110; 0; 0; 0; 0; 111; 0; 0; 112; 113; 114; 115; 0; 0; 0; 0; 0; 116; 0; 117; 0; 118; 0; 0; 0; 0; 119; 120; 121; 122; 0; 123; 0;
  0; 0; 0; 0; 124; 0; 125; 126; 127; 128; 129; 0; 0; 0; 0; 130; 0; 131; 132; 133; 0; 134; 0; 0; 0; 135; 136; 137; 138; 139; 0; 97; 0; 0; 0;
  0; 0; 0; 142; 98; 0; 99; 0; 100; 0; 0; 101; 102; 103; 0; 104; 105; 0; 0; 283; 0; 0; 106; 107; 143; 16; 108; 109; 0; 0; 0; 110; 0; 0; 0;
  0; 111; 0; 0; 112; 113; 114; 115; 0; 0; 0; 0; 0; 116; 0; 117; 0; 118; 0; 0; 0; 0; 119; 120; 121; 122; 0; 123; 0; 0; 0; 0; 0; 124; 0; 125;
  126; 127; 128; 129; 0; 0; 0; 0; 130; 0; 131; 132; 133; 0; 134; 0; 0; 0; 135; 136; 137; 138; 139; 0; 97; 625; 0; 0; 0; 0; 0; 142; 98; 0;
  99; 0; 100; 0; 0; 101; 102; 103; 0; 104; 105; 0; 0; 283; 0; 0; 106; 107; 143; 16; 108; 109; 0; 0; 0; 110; 0; 0; 0; 0; 111; 0; 0; 112;
  113; 114; 115; 0; 0; 0; 0; 0; 116; 0; 117; 0; 118; 0; 0; 0; 0; 119; 120; 121; 122; 0; 123; 0; 0; 0; 0; 0; 124; 0; 125; 126; 127; 128;
  129; 0; 0; 0; 0; 130; 0; 131; 132; 133; 0; 134; 0; 0; 0; 135; 136; 137; 138; 139; 0; 97; 707; 0; 0; 0; 0; 0; 142; 98; 0; 99; 0; 100; 0;
  0; 101; 102; 103; 0; 104; 105; 0; 0; 283; 0; 0; 106; 107; 143; 16; 108; 109; 0; 0; 0; 110; 0; 0; 0; 0; 111; 0; 0; 112; 113; 114; 115; 0;
  0; 0; 0; 0; 116; 0; 117; 0; 118; 0; 0; 0; 0; 119; 120; 121; 122; 0; 123; 0; 0; 0; 0; 0; 124; 0; 125; 126; 127; 128; 129; 0; 0; 0; 0; 130;
  0; 131; 132; 133; 0; 134; 0; 0; 0; 135; 136; 137; 138; 139; 0; 97; 864; 0; 0; 0; 0; 0; 142; 98; 0; 99; 0; 100; 0; 0; 101; 102; 103; 0;
  104; 105; 0; 0; 0; 0; 0; 106; 107; 143; 16; 108; 109; 0; 0; 0; 110; 0; 0; 0; 0; 111; 0; 0; 112; 113; 114; 115; 0; 0; 0; 0; 0; 116; 0;
  117; 0; 118; 0; 0; 0; 0; 119; 120; 121; 122; 0; 123; 0; 0; 0; 0; 0; 124; 0; 125; 126; 127; 128; 129; 0; 0; 0; 0; 130; 0; 131; 132; 133;
  0; 134; 0; 0; 0; 135; 136; 137; 138; 139; 0; 97; 0; 0; 141; 0; 0; 0; 142; 98; 0; 99; 0; 100; 0; 0; 101; 102; 103; 0; 104; 105; 220; 0; 0;
  0; 0; 106; 107; 143; 16; 108; 109; 0; 0; 0; 110; 0; 0; 0; 0; 111; 0; 0; 112; 113; 114; 115; 0; 0; 0; 0; 0; 116; 0; 117; 0; 118; 0; 0; 0;
  0; 119; 120; 121; 122; 0; 123; 0; 0; 0; 0; 0; 124; 0; 125; 126; 127; 128; 129; 0; 0; 0; 0; 130; 0; 131; 132; 133; 0; 134; 0; 0; 0; 135;
  136; 137; 138; 139; 0; 97; 0; 0; 0; 0; 0; 0; 142; 98; 0; 99; 0; 100; 0; 0; 101; 102; 103; 0; 104; 105; 0; 0; 0; 0; 0; 106; 107; 221; 16;
  108; 109; 0; 0; 0; 110; 0; 0; 0; 0; 111; 0; 0; 112; 113; 114; 115; 0; 0; 0; 0; 0; 116; 0; 117; 0; 118; 0; 0; 0; 0; 119; 120; 121; 122; 0;
  123; 0; 0; 0; 0; 0; 124; 0; 125; 126; 127; 128; 129; 0; 0; 0; 0; 130; 0; 131; 132; 133; 0; 134; 0; 0; 0; 135; 136; 137; 138; 139; 0; 243;
  0; 0; 0; 97; 0; 0; 142; 0; 0; 0; 0; 98; 0; 99; 0; 100; 0; 0; 101; 102; 103; 0; 104; 105; 0; 0; 0; 143; 16; 106; 107; 0; 0; 108; 109; 0;
  0; 0; 110; 0; 0; 0; 0; 111; 0; 0; 112; 113; 114; 115; 0; 0; 0; 0; 0; 116; 0; 117; 0; 118; 0; 0; 0; 0; 119; 120; 121; 122; 0; 123; 0; 0;
  0; 0; 0; 124; 0; 125; 126; 127; 128; 129; 0; 0; 0; 0; 130; 0; 131; 132; 133; 0; 134; 0; 0; 0; 135; 136; 137; 138; 139; 0; 97; 0; 0; 0; 0;
  0; 0; 142; 98; 253; 99; 0; 100; 0; 0; 101; 102; 103; 0; 104; 105; 0; 0; 0; 0; 0; 106; 107; 143; 16; 108; 109; 0; 0; 0; 110; 0; 0; 0; 0;
  111; 0; 0; 112; 113; 114; 115; 0; 0; 0; 0; 0; 116; 0; 117; 0; 118; 0; 0; 0; 0; 119; 120; 121; 122; 0; 123; 0; 0; 0; 0; 0; 124; 0; 125;
  126; 127; 128; 129; 0; 0; 0; 0; 130; 0; 131; 132; 133; 0; 134; 0; 0; 0; 135; 136; 137; 138; 139; 0; 97; 628; 0; 0; 0; 0; 0; 142; 98; 0;
  99; 0; 100; 0; 0; 101; 102; 103; 0; 104; 105; 0; 0; 283; 0; 0; 106; 107; 221; 16; 108; 109; 0; 0; 0; 110; 0; 0; 0; 0; 111; 0; 0; 112;
  113; 114; 115; 0; 0; 0; 0; 0; 116; 0; 117; 0; 118; 0; 0; 0; 0; 119; 120; 121; 122; 0; 123; 0; 0; 0; 0; 0; 124; 0; 125; 126; 127; 128;
  129; 0; 0; 0; 0; 130; 0; 131; 132; 133; 0; 134; 0; 0; 0; 135; 136; 137; 138; 139; 0; 97; 0; 0; 0; 0; 0; 0; 142; 98; 0; 99; 0; 100; 0; 0;
  101; 102; 103; 0; 104; 105; 0; 0; 0; 0; 0; 106; 107; 143; 16; 108; 109; 0; 0; 0; 110; 0; 0; 0; 0; 111; 0; 0; 112; 113; 114; 115; 0; 0; 0;
  0; 0; 116; 0; 117; 0; 118; 0; 0; 0; 0; 119; 120; 121; 122; 0; 123; 0; 0; 0; 0; 0; 124; 0; 125; 126; 127; 128; 129; 0; 0; 0; 0; 130; 0;
  131; 132; 133; 0; 134; 0; 0; 0; 135; 136; 137; 138; 139; 0; 97; 0; 0; 0; 0; 0; 0; 142; 98; 0; 99; 0; 100; 0; 0; 101; 102; 103; 0; 104;
  105; 0; 0; 0; 0; 0; 106; 107; 221; 230; 108; 109; 0; 0; 0; 110; 0; 0; 0; 0; 111; 0; 0; 112; 113; 114; 115; 0; 0; 0; 0; 0; 116; 0; 117; 0;
  118; 0; 0; 0; 0; 119; 120; 121; 122; 0; 123; 0; 0; 0; 0; 0; 124; 0; 125; 126; 127; 128; 129; 0; 0; 0; 0; 130; 0; 131; 132; 133; 0; 134;
  0; 0; 0; 135; 136; 137; 138; 139; 0; 97; 0; 0; 0; 0; 0; 0; 142; 98; 0; 99; 0; 100; 0; 0; 101; 102; 103; 0; 104; 105; 0; 0; 0; 0; 0; 106;
  107; 143; 16; 108; 109; 0; 0; 0; 110; 0; 0; 0; 0; 111; 0; 0; 112; 113; 114; 115; 0; 0; 0; 0; 0; 116; 0; 117; 0; 118; 0; 0; 0; 0; 119;
  120; 121; 122; 0; 123; 0; 0; 0; 0; 0; 124; 0; 125; 126; 127; 128; 129; 0; 0; 0; 0; 130; 0; 131; 132; 133; 0; 134; 0; 0; 0; 135; 136; 137;
  138; 139; 0; 0; 0; 0; 0; 0; 0; 0; 142; 0; 0; 0; 0; 0; 0; 0; 0; 0; 0; 0; 0; 0; 0; 0; 0; 0; 371; 372; 0; 221; 16; 725; 824; 727; 0; 728;
  825; 730; 731; 826; 827; 828; 829; 830; 831; 738; 739; 740; 741; 832; 833; 834; 745; 746; 835; 836; 749; 750; 751; 837; 753; 754; 755;
  756; 838; 839; 759; 0; 0; 0; 0; 760; 761; 762; 763; 764; 840; 766; 841; 768; 0; 769; 770; 771; 772; 0; 842; 0; 843; 775; 844; 845; 778;
  779; 780; 781; 0; 782; 846; 847; 848; 849; 850; 788; 789; 790; 791; 0; 792; 0; 851; 852; 853; 854; 797; 798; 799; 0; 0; 0; 0; 0; 855; 0;
  0; 0; 0; 0; 0; 0; 0; 0; 0; 0; 0; 0; 0; 0; 0; 801; 0; 0; 0; 0; 0; 0; 0; 0; 725; 824; 727; 857; 728; 825; 730; 731; 826; 827; 828; 829;
  830; 831; 738; 739; 740; 741; 832; 833; 834; 745; 746; 835; 836; 749; 750; 751; 837; 753; 754; 755; 756; 838; 839; 759; 0; 0; 0; 0; 760;
  761; 762; 763; 764; 840; 766; 841; 768; 0; 769; 770; 771; 772; 0; 842; 0; 843; 775; 844; 845; 778; 779; 780; 781; 0; 782; 846; 847; 848;
  849; 850; 788; 789; 790; 791; 0; 792; 0; 851; 852; 853; 854; 797; 798; 799; 0; 0; 0; 0; 0; 855; 0; 0; 0; 0; 867; 0; 0; 856; 0; 0; 0; 0;
  0; 0; 0; 0; 801; 0; 0; 0; 0; 0; 0; 0; 0; 725; 824; 727; 857; 728; 825; 730; 731; 826; 827; 828; 829; 830; 831; 738; 739; 740; 741; 832;
  833; 834; 745; 746; 835; 836; 749; 750; 751; 837; 753; 754; 755; 756; 838; 839; 759; 0; 0; 0; 0; 760; 761; 762; 763; 764; 840; 766; 841;
  768; 0; 769; 770; 771; 772; 0; 842; 0; 843; 775; 844; 845; 778; 779; 780; 781; 0; 782; 846; 847; 848; 849; 850; 788; 789; 790; 791; 0;
  792; 0; 851; 852; 853; 854; 797; 798; 799; 0; 0; 0; 0; 0; 855; 0; 0; 0; 0; 0; 0; 0; 856; 873; 0; 0; 0; 0; 0; 0; 0; 801; 0; 0; 0; 0; 0; 0;
  0; 0; 725; 824; 727; 857; 728; 825; 730; 731; 826; 827; 828; 829; 830; 831; 738; 739; 740; 741; 832; 833; 834; 745; 746; 835; 836; 749;
  750; 751; 837; 753; 754; 755; 756; 838; 839; 759; 0; 0; 0; 0; 760; 761; 762; 763; 764; 840; 766; 841; 768; 0; 769; 770; 771; 772; 0; 842;
  0; 843; 775; 844; 845; 778; 779; 780; 781; 0; 782; 846; 847; 848; 849; 850; 788; 789; 790; 791; 0; 792; 0; 851; 852; 853; 854; 797; 798;
  799; 0; 0; 0; 0; 0; 855; 0; 0; 0; 0; -266; 0; -266; 856; -266; 0; -266; -266; 0; 0; 0; 0; 801; 0; -266; -266; -266; -266; 0; 0; 0; -266;
  -266; 0; 857; -266; -266; -266; 0; -266; -266; -266; -266; 0; 0; -266; 0; 0; 0; 0; -266; -266; -266; -266; -266; 0; -266; 0; -266; 0;
  -266; -266; -266; -266; 0; 0; 0; 0; -266; 0; 0; -266; -266; -266; -266; 0; -266; 0; 0; 0; 0; 0; -266; -266; -266; -266; 0; -266; 0; 0; 0;
  0; 0; -266; -266; -266; 0; 0; -267; 0; -267; 0; -267; 0; -267; -267; -266; 0; 0; 0; 0; 0; -267; -267; -267; -267; 0; 0; -266; -267; -267;
  0; 0; -267; -267; -267; -266; -267; -267; -267; -267; 0; 0; -267; 0; 0; 0; 0; -267; -267; -267; -267; -267; 0; -267; 0; -267; 0; -267;
  -267; -267; -267; 0; 0; 0; 0; -267; 0; 0; -267; -267; -267; -267; 0; -267; 0; 0; 0; 0; 0; -267; -267; -267; -267; 0; -267; 0; 0; 0; 0; 0;
  -267; -267; -267; 0; 0; 0; 0; 0; 0; 0; 0; 0; 0; -267; 0; 0; 0; 0; 0; 0; 0; 0; 0; 0; 0; -267; 0; 0; 0; 0; 0; 0; 0; -267].
(** line 10652 *)
Definition yycheck : list Z := [
  9; 128; 129; 256; 140; 141; 362; 128; 129; 18; 0; 140; 141; 3; 557; 203; 448; 246; 460; 311; 207; 141; 210; 4; 500; 455; 284; 457; 216;
  691; 31; 22; 312; 22; 4; 5; 6; 7; 4; 9; 22; 11; 518; 4; 213; 4; 5; 709; 22; 64; 20; 22; 50; 33; 307; 22; 24; 487; 213; 4; 24; 25; 476;
  149; 34; 4; 54; 77; 112; 327; 206; 89; 122; 30; 50; 122; 122; 206; 77; 112; 9; 87; 50; 124; 211; 126; 51; 87; 50; 18; 50; 89; 4; 63; 450;
  113; 102; 138; 50; 89; 150; 145; 102; 150; 150; 95; 50; 243; 126; 79; 29; 525; 145; 89; 243; 95; 123; 246; 124; 124; 126; 89; 137; 130;
  124; 378; 126; 89; 126; 89; 673; 126; 412; 138; 114; 388; 146; 89; 126; 392; 110; 213; 311; 312; 806; 89; 141; 146; 149; 150; 140; 141;
  125; 124; 111; 585; 311; 312; 149; 150; 130; 150; 75; 89; 137; 353; 354; 149; 421; 150; 89; 359; 360; 0; 93; 149; 532; 304; 149; 149;
  150; 122; 149; 149; 150; 149; 258; 113; 149; 150; 149; 150; 149; 650; 203; 123; 205; 35; 207; 124; 862; 210; 130; 212; 149; 150; 133;
  216; 217; 150; 149; 150; 465; 125; 126; 691; 206; 674; 130; 125; 124; 59; 126; 213; 126; 24; 25; 124; 364; 28; 672; 137; 70; 709; 138;
  364; 138; 149; 150; 311; 312; 138; 125; 412; 364; 365; 124; 476; 126; 258; 125; 260; 138; 243; 137; 443; 246; 412; 16; 125; 138; 125;
  137; 141; 150; 452; 256; 125; 258; 522; 700; 137; 140; 526; 527; 528; 529; 530; 56; 137; 572; 137; 60; 137; 126; 141; 455; 141; 457; 145;
  445; 145; 461; 551; 449; 858; 525; 126; 370; 106; 455; 130; 457; 866; 562; 121; 461; 61; 121; 121; 126; 121; 481; 126; 126; 484; 126;
  307; 487; 141; 676; 311; 312; 145; 17; 18; 481; 241; 871; 484; 106; 245; 487; 124; 125; 126; 124; 432; 126; 434; 412; 679; 469; 681; 353;
  354; 106; 476; 149; 150; 359; 360; 24; 25; 44; 45; 648; 24; 25; 4; 432; 140; 434; 499; 71; 501; 125; 126; 621; 121; 499; 127; 501; 445;
  364; 817; 133; 449; 53; 36; 370; 72; 635; 455; 816; 457; 862; 142; 378; 461; 137; 66; 67; 685; 142; 70; 525; 124; 388; 74; 592; 593; 392;
  572; 56; 125; 142; 103; 103; 481; 85; 124; 484; 91; 89; 487; 585; 572; 124; 87; 124; 674; 412; 432; 103; 434; 69; 16; 138; 565; 585; 421;
  620; 875; 443; 121; 565; 138; 691; 448; 124; 124; 432; 452; 434; 130; 138; 124; 124; 138; 150; 460; 126; 87; 87; 445; 709; 87; 87; 449;
  124; 141; 124; 89; 90; 455; 141; 457; 138; 541; 141; 461; 544; 124; 22; 465; 141; 125; 137; 648; 126; 125; 132; 137; 87; 138; 476; 125;
  137; 742; 58; 481; 13; 648; 484; 40; 138; 487; 40; 124; 572; 124; 137; 4; 5; 6; 7; 58; 9; 499; 11; 501; 639; 585; 140; 141; 685; 705;
  123; 20; 130; 138; 124; 138; 150; 125; 145; 126; 125; 137; 685; 700; 522; 34; 543; 525; 526; 527; 528; 529; 530; 137; 126; 138; 145; 700;
  138; 138; 557; 175; 803; 541; 125; 806; 544; 126; 126; 124; 137; 149; 124; 570; 63; 137; 125; 137; 144; 576; 127; 195; 127; 129; 122; 4;
  150; 565; 648; 252; 79; 254; 127; 256; 572; 53; 210; 125; 212; 125; 137; 40; 216; 217; 127; 122; 125; 585; 66; 67; 137; 127; 70; 120;
  127; 127; 74; 127; 138; 137; 125; 110; 137; 620; 125; 685; 137; 85; 125; 243; 104; 137; 246; 141; 137; 249; 250; 124; 138; 253; 700; 125;
  138; 621; 307; 213; 137; 137; 141; 137; 148; 265; 138; 138; 125; 137; 137; 635; 137; 3; 149; 150; 243; 856; 674; 596; 657; 281; 806; 803;
  648; 786; 787; 242; 671; 672; 673; 786; 787; 565; 90; 565; 679; 141; 681; 686; 646; 301; 364; 18; 687; 688; 32; 74; 53; 687; 674; 70; 85;
  671; 543; 364; 365; 217; 541; 11; 49; 685; 705; 620; 44; 481; 697; 691; -1; 378; 484; 336; 585; -1; 461; -1; 700; -1; -1; 388; -1; 341;
  -1; 392; -1; 709; -1; -1; -1; -1; -1; -1; -1; 353; 354; -1; -1; 311; 312; 359; 360; -1; -1; -1; 364; -1; -1; -1; -1; 213; -1; -1; 421;
  -1; -1; -1; -1; 246; 742; -1; -1; -1; -1; -1; -1; -1; -1; 256; -1; 4; 5; 6; 7; -1; 9; -1; 11; -1; -1; -1; -1; -1; -1; -1; -1; 20; -1; -1;
  -1; -1; -1; -1; -1; -1; 258; -1; 465; -1; -1; 34; -1; -1; -1; -1; -1; -1; -1; -1; -1; -1; -1; -1; -1; 816; 817; -1; -1; -1; 307; 803; -1;
  -1; 806; -1; -1; 445; -1; -1; 63; -1; -1; -1; -1; 453; -1; -1; -1; -1; 412; -1; 460; -1; -1; -1; -1; -1; -1; 311; 312; -1; -1; -1; -1;
  522; -1; -1; 476; 526; 527; 528; 529; 530; -1; -1; -1; -1; -1; -1; 871; -1; -1; -1; 875; -1; -1; 110; -1; -1; -1; 499; 500; 455; -1; 457;
  -1; -1; -1; 461; -1; 378; -1; -1; -1; -1; -1; -1; 565; -1; -1; 388; 364; 365; -1; 392; -1; 525; 370; 481; -1; -1; 484; -1; -1; 487; 149;
  150; -1; -1; -1; -1; -1; -1; -1; -1; -1; -1; -1; -1; -1; -1; -1; -1; 421; -1; -1; -1; -1; 557; -1; -1; -1; -1; -1; -1; -1; 565; -1; -1;
  412; -1; -1; -1; 621; -1; -1; -1; -1; -1; -1; -1; -1; -1; -1; -1; -1; -1; 635; -1; 432; -1; 434; -1; -1; -1; -1; -1; 465; -1; 598; -1;
  -1; 445; -1; -1; -1; 449; -1; 476; -1; -1; -1; 455; -1; 457; -1; -1; -1; 461; 572; -1; -1; -1; -1; -1; -1; 674; -1; 676; -1; -1; -1; 585;
  -1; -1; -1; -1; -1; 481; -1; -1; 484; -1; -1; 487; -1; 489; -1; -1; -1; -1; -1; -1; -1; 522; -1; -1; 525; 526; 527; 528; 529; 530; -1;
  -1; -1; -1; -1; -1; -1; -1; -1; -1; 672; 673; -1; -1; -1; -1; -1; -1; -1; -1; -1; -1; -1; -1; -1; -1; 532; -1; -1; 691; 536; 742; 648;
  -1; -1; 541; -1; -1; 544; -1; -1; -1; -1; -1; -1; -1; -1; 709; -1; -1; -1; 4; 5; 6; 7; -1; 9; -1; 11; -1; -1; -1; -1; -1; -1; -1; 572;
  20; -1; 685; -1; 24; 25; -1; -1; -1; -1; 30; -1; 585; -1; 34; -1; -1; 700; -1; -1; 40; -1; -1; 621; -1; -1; -1; 47; -1; -1; -1; -1; -1;
  -1; -1; -1; -1; 635; -1; -1; -1; -1; -1; 63; -1; -1; -1; -1; -1; -1; -1; -1; -1; -1; -1; -1; 76; -1; -1; -1; -1; -1; -1; -1; -1; -1; -1;
  -1; -1; 89; -1; -1; -1; -1; 803; 648; 674; 806; -1; -1; -1; -1; -1; -1; -1; -1; -1; -1; 817; -1; 110; 111; -1; 691; -1; -1; -1; -1; -1;
  -1; 120; -1; -1; -1; 124; 125; -1; -1; -1; -1; -1; 709; 685; 133; -1; -1; -1; -1; -1; -1; -1; 141; -1; -1; -1; -1; -1; 700; -1; 149; 150;
  -1; -1; -1; -1; -1; -1; -1; -1; -1; -1; -1; 871; -1; 742; -1; 875; -1; -1; -1; -1; -1; -1; -1; -1; -1; -1; -1; -1; -1; -1; -1; -1; -1;
  -1; -1; -1; -1; -1; -1; -1; -1; -1; -1; -1; -1; -1; -1; -1; -1; -1; -1; -1; -1; -1; -1; 4; 5; 6; 7; -1; 9; -1; 11; -1; -1; -1; -1; -1;
  -1; -1; -1; 20; -1; 22; 803; 24; 25; 806; -1; -1; 29; 30; 31; 32; 33; 34; 35; 36; 37; 38; 39; 40; 41; 42; 43; 44; 45; 46; 47; 48; 49; 50;
  51; 52; 53; 54; 55; 56; 57; 58; 59; 60; 61; 62; 63; 64; 65; 66; 67; 68; 69; 70; 71; 72; 73; 74; 75; 76; 77; 78; 79; 80; 81; 82; 83; 84;
  85; 86; 87; 88; 89; 90; 91; 92; 93; 94; 95; 96; 97; 98; 99; 100; 101; 102; 103; 104; 105; 106; 107; 108; 109; 110; 111; 112; 113; 114;
  115; 116; 117; 118; 119; 120; -1; -1; -1; 124; 125; -1; -1; 128; -1; -1; -1; -1; 133; -1; -1; -1; 137; -1; -1; -1; 141; -1; -1; -1; -1;
  -1; -1; -1; 149; 150; 4; 5; 6; 7; -1; 9; -1; 11; -1; -1; -1; -1; -1; -1; -1; -1; 20; -1; 22; -1; 24; 25; -1; -1; -1; 29; 30; 31; 32; 33;
  34; 35; 36; 37; 38; 39; 40; 41; 42; 43; 44; 45; 46; 47; 48; 49; 50; 51; 52; 53; 54; 55; 56; 57; 58; 59; 60; 61; 62; 63; 64; 65; 66; 67;
  68; 69; 70; 71; 72; 73; 74; 75; 76; 77; 78; 79; 80; 81; 82; 83; 84; 85; 86; 87; 88; 89; 90; 91; 92; 93; 94; 95; 96; 97; 98; 99; 100; 101;
  102; 103; 104; 105; 106; 107; 108; 109; 110; 111; 112; 113; 114; 115; 116; 117; 118; 119; 120; -1; -1; -1; 124; -1; -1; -1; 128; 4; 5; 6;
  7; 133; 9; -1; 11; 137; -1; -1; -1; 141; -1; -1; -1; 20; -1; 22; -1; 149; 150; -1; -1; -1; -1; 30; 31; 32; -1; 34; -1; -1; 37; 38; 39;
  -1; 41; 42; -1; -1; -1; 46; 47; 48; 49; -1; -1; 52; 53; 54; -1; -1; 57; -1; -1; -1; -1; 62; 63; 64; 65; 66; 67; 68; -1; -1; -1; -1; 73;
  74; -1; 76; -1; 78; -1; 80; -1; -1; 83; 84; 85; 86; -1; 88; -1; 90; -1; -1; -1; 94; -1; 96; 97; 98; 99; 100; 101; 102; -1; -1; 105; -1;
  107; 108; 109; 110; 111; -1; -1; -1; 115; 116; 117; 118; 119; 120; -1; -1; -1; 124; -1; 126; -1; 128; 4; 5; 6; 7; -1; 9; -1; 11; -1; -1;
  -1; -1; -1; -1; -1; -1; 20; -1; 22; -1; 149; 150; -1; -1; -1; -1; 30; 31; 32; -1; 34; -1; -1; 37; 38; 39; -1; 41; 42; -1; -1; -1; -1; -1;
  48; 49; -1; -1; 52; 53; -1; -1; -1; 57; -1; -1; -1; -1; 62; 63; 64; 65; 66; 67; 68; -1; -1; -1; -1; 73; 74; -1; 76; -1; 78; -1; 80; -1;
  -1; 83; 84; 85; 86; -1; 88; -1; 90; -1; -1; -1; 94; -1; 96; 97; 98; 99; 100; 101; 102; -1; -1; 105; -1; 107; 108; 109; 110; 111; -1; -1;
  -1; 115; 116; 117; 118; 119; 120; -1; 122; -1; -1; -1; 126; -1; 128; -1; -1; -1; -1; -1; -1; 4; 5; 6; 7; -1; 9; -1; 11; -1; -1; -1; -1;
  -1; -1; 149; 150; 20; -1; 22; -1; 24; 25; -1; -1; -1; -1; 30; -1; 32; -1; 34; -1; -1; 37; 38; 39; 40; 41; 42; -1; -1; -1; -1; 47; 48; 49;
  -1; -1; 52; 53; -1; -1; -1; 57; -1; -1; -1; -1; 62; 63; -1; 65; 66; 67; 68; -1; -1; -1; -1; -1; 74; -1; 76; -1; 78; -1; -1; -1; -1; 83;
  84; 85; 86; -1; 88; 89; -1; -1; -1; -1; 94; -1; 96; 97; 98; 99; 100; -1; -1; -1; -1; 105; -1; 107; 108; 109; 110; 111; -1; -1; -1; 115;
  116; 117; 118; 119; 120; -1; -1; -1; 124; -1; -1; -1; 128; 4; 5; 6; 7; 133; 9; -1; 11; -1; -1; -1; -1; 141; -1; -1; -1; 20; -1; 22; -1;
  149; 150; -1; -1; -1; -1; 30; 31; 32; -1; 34; -1; -1; 37; 38; 39; -1; 41; 42; -1; -1; -1; -1; -1; 48; 49; -1; -1; 52; 53; -1; -1; -1; 57;
  -1; -1; -1; -1; 62; 63; 64; 65; 66; 67; 68; -1; -1; -1; -1; 73; 74; -1; 76; -1; 78; -1; 80; -1; -1; 83; 84; 85; 86; -1; 88; -1; 90; -1;
  -1; -1; 94; -1; 96; 97; 98; 99; 100; 101; 102; -1; -1; 105; -1; 107; 108; 109; 110; 111; -1; -1; -1; 115; 116; 117; 118; 119; 120; -1;
  -1; -1; -1; -1; 126; -1; 128; -1; -1; -1; -1; -1; -1; 4; 5; 6; 7; -1; 9; -1; 11; -1; -1; -1; -1; -1; -1; 149; 150; 20; -1; 22; -1; 24;
  25; -1; -1; -1; -1; 30; -1; 32; -1; 34; -1; -1; 37; 38; 39; 40; 41; 42; -1; -1; -1; -1; 47; 48; 49; -1; -1; 52; 53; -1; -1; -1; 57; -1;
  -1; -1; -1; 62; 63; -1; 65; 66; 67; 68; -1; -1; -1; -1; -1; 74; -1; 76; -1; 78; -1; -1; -1; -1; 83; 84; 85; 86; -1; 88; 89; -1; -1; -1;
  -1; 94; -1; 96; 97; 98; 99; 100; -1; -1; -1; -1; 105; -1; 107; 108; 109; 110; 111; -1; -1; -1; 115; 116; 117; 118; 119; 120; -1; -1; -1;
  124; -1; -1; -1; 128; 4; 5; 6; 7; 133; 9; -1; 11; -1; -1; -1; -1; 141; -1; -1; -1; 20; -1; 22; -1; 149; 150; -1; -1; -1; -1; 30; -1; 32;
  -1; 34; -1; -1; 37; 38; 39; -1; 41; 42; -1; -1; -1; -1; -1; 48; 49; -1; -1; 52; 53; -1; -1; -1; 57; -1; -1; -1; -1; 62; 63; 64; 65; 66;
  67; 68; -1; -1; -1; -1; 73; 74; -1; 76; -1; 78; -1; 80; -1; -1; 83; 84; 85; 86; -1; 88; -1; 90; -1; -1; -1; 94; -1; 96; 97; 98; 99; 100;
  101; 102; 4; 5; 105; -1; 107; 108; 109; 110; 111; -1; -1; -1; 115; 116; 117; 118; 119; 120; 22; -1; -1; -1; -1; 126; -1; 128; 30; -1; 32;
  -1; 34; -1; -1; 37; 38; 39; -1; 41; 42; -1; -1; -1; -1; -1; 48; 49; 149; 150; 52; 53; -1; -1; -1; 57; -1; -1; -1; -1; 62; -1; -1; 65; 66;
  67; 68; -1; -1; -1; -1; -1; 74; -1; 76; -1; 78; -1; -1; -1; -1; 83; 84; 85; 86; -1; 88; -1; -1; -1; -1; -1; 94; -1; 96; 97; 98; 99; 100;
  -1; -1; -1; -1; 105; -1; 107; 108; 109; -1; 111; -1; -1; -1; 115; 116; 117; 118; 119; -1; -1; 4; 5; 6; 7; -1; 9; 128; 11; -1; -1; -1; -1;
  -1; -1; -1; -1; 20; -1; 22; -1; 24; 25; -1; -1; -1; -1; 30; 149; 150; -1; 34; -1; 4; 5; 6; 7; 40; 9; -1; 11; -1; -1; -1; 47; -1; -1; -1;
  -1; 20; -1; -1; -1; 24; 25; -1; -1; -1; -1; 30; 63; -1; -1; 34; -1; -1; -1; -1; -1; 40; -1; -1; -1; 76; -1; -1; 47; -1; -1; -1; -1; -1;
  -1; -1; -1; -1; 89; -1; -1; -1; -1; -1; 63; -1; -1; -1; -1; -1; -1; -1; -1; -1; -1; -1; -1; 76; -1; 110; 111; -1; -1; -1; -1; -1; -1; -1;
  -1; 120; 89; -1; -1; 124; -1; -1; -1; -1; -1; -1; -1; -1; 133; -1; -1; -1; -1; -1; -1; -1; 141; 110; 111; -1; -1; -1; -1; -1; 149; 150;
  -1; 120; -1; -1; -1; 124; -1; -1; -1; 22; -1; -1; -1; -1; 133; -1; -1; 30; -1; 32; -1; 34; 141; -1; 37; 38; 39; -1; 41; 42; 149; 150; 45;
  -1; -1; 48; 49; -1; -1; 52; 53; -1; -1; -1; 57; -1; -1; -1; -1; 62; -1; -1; 65; 66; 67; 68; -1; -1; -1; -1; -1; 74; -1; 76; -1; 78; -1;
  -1; -1; -1; 83; 84; 85; 86; -1; 88; -1; -1; -1; -1; -1; 94; -1; 96; 97; 98; 99; 100; -1; -1; -1; -1; 105; -1; 107; 108; 109; -1; 111; -1;
  -1; -1; 115; 116; 117; 118; 119; -1; 22; 122; -1; -1; 125; -1; -1; 128; 30; -1; 32; -1; 34; -1; -1; 37; 38; 39; -1; 41; 42; -1; -1; 45;
  -1; -1; 48; 49; 149; 150; 52; 53; -1; -1; -1; 57; -1; -1; -1; -1; 62; -1; -1; 65; 66; 67; 68; -1; -1; -1; -1; -1; 74; -1; 76; -1; 78; -1;
  -1; -1; -1; 83; 84; 85; 86; -1; 88; -1; -1; -1; -1; -1; 94; -1; 96; 97; 98; 99; 100; -1; -1; -1; -1; 105; -1; 107; 108; 109; -1; 111; -1;
  -1; -1; 115; 116; 117; 118; 119; -1; 22; 122; -1; -1; 125; -1; -1; 128; 30; -1; 32; -1; 34; -1; -1; 37; 38; 39; -1; 41; 42; -1; -1; -1;
  -1; -1; 48; 49; 149; 150; 52; 53; -1; -1; -1; 57; -1; -1; -1; -1; 62; -1; -1; 65; 66; 67; 68; -1; -1; -1; -1; -1; 74; -1; 76; -1; 78; -1;
  -1; -1; -1; 83; 84; 85; 86; -1; 88; -1; -1; -1; -1; -1; 94; -1; 96; 97; 98; 99; 100; -1; -1; -1; -1; 105; -1; 107; 108; 109; -1; 111; -1;
  -1; -1; 115; 116; 117; 118; 119; -1; 121; -1; -1; 124; 22; -1; -1; 128; -1; -1; -1; -1; 30; -1; 32; -1; 34; -1; -1; 37; 38; 39; -1; 41;
  42; -1; -1; -1; 149; 150; 48; 49; -1; -1; 52; 53; -1; -1; -1; 57; -1; 59; -1; -1; 62; -1; -1; 65; 66; 67; 68; -1; 70; -1; -1; -1; 74; -1;
  76; -1; 78; -1; -1; -1; -1; 83; 84; 85; 86; -1; 88; -1; -1; -1; -1; -1; 94; -1; 96; 97; 98; 99; 100; -1; -1; -1; -1; 105; -1; 107; 108;
  109; -1; 111; -1; -1; -1; 115; 116; 117; 118; 119; -1; 22; -1; -1; -1; -1; -1; -1; 128; 30; -1; 32; -1; 34; -1; -1; 37; 38; 39; -1; 41;
  42; -1; -1; 45; -1; -1; 48; 49; 149; 150; 52; 53; -1; -1; -1; 57; -1; -1; -1; -1; 62; -1; -1; 65; 66; 67; 68; -1; -1; -1; -1; -1; 74; -1;
  76; -1; 78; -1; -1; -1; -1; 83; 84; 85; 86; -1; 88; -1; -1; -1; -1; -1; 94; -1; 96; 97; 98; 99; 100; -1; -1; -1; -1; 105; -1; 107; 108;
  109; -1; 111; -1; -1; -1; 115; 116; 117; 118; 119; -1; 22; 122; 24; 25; -1; -1; -1; 128; 30; -1; 32; -1; 34; -1; -1; 37; 38; 39; -1; 41;
  42; -1; -1; -1; -1; -1; 48; 49; 149; 150; 52; 53; -1; -1; -1; 57; -1; -1; -1; -1; 62; -1; -1; 65; 66; 67; 68; -1; -1; -1; -1; -1; 74; -1;
  76; -1; 78; -1; -1; -1; -1; 83; 84; 85; 86; -1; 88; -1; -1; -1; -1; -1; 94; -1; 96; 97; 98; 99; 100; -1; -1; -1; -1; 105; -1; 107; 108;
  109; -1; 111; -1; -1; -1; 115; 116; 117; 118; 119; -1; 22; -1; -1; -1; -1; -1; -1; 128; 30; -1; 32; -1; 34; -1; -1; 37; 38; 39; -1; 41;
  42; -1; -1; 45; -1; -1; 48; 49; 149; 150; 52; 53; -1; -1; -1; 57; -1; -1; -1; -1; 62; -1; -1; 65; 66; 67; 68; -1; -1; -1; -1; -1; 74; -1;
  76; -1; 78; -1; -1; -1; -1; 83; 84; 85; 86; -1; 88; -1; -1; -1; -1; -1; 94; -1; 96; 97; 98; 99; 100; -1; -1; -1; -1; 105; -1; 107; 108;
  109; -1; 111; -1; -1; -1; 115; 116; 117; 118; 119; -1; 22; 122; -1; -1; -1; -1; -1; 128; 30; -1; 32; -1; 34; -1; -1; 37; 38; 39; -1; 41;
  42; -1; -1; 45; -1; -1; 48; 49; 149; 150; 52; 53; -1; -1; -1; 57; -1; -1; -1; -1; 62; -1; -1; 65; 66; 67; 68; -1; -1; -1; -1; -1; 74; -1;
  76; -1; 78; -1; -1; -1; -1; 83; 84; 85; 86; -1; 88; -1; -1; -1; -1; -1; 94; -1; 96; 97; 98; 99; 100; -1; -1; -1; -1; 105; -1; 107; 108;
  109; -1; 111; -1; -1; -1; 115; 116; 117; 118; 119; -1; 22; 122; -1; -1; -1; -1; -1; 128; 30; -1; 32; -1; 34; -1; -1; 37; 38; 39; -1; 41;
  42; -1; -1; 45; -1; -1; 48; 49; 149; 150; 52; 53; -1; -1; -1; 57; -1; -1; -1; -1; 62; -1; -1; 65; 66; 67; 68; -1; -1; -1; -1; -1; 74; -1;
  76; -1; 78; -1; -1; -1; -1; 83; 84; 85; 86; -1; 88; -1; -1; -1; -1; -1; 94; -1; 96; 97; 98; 99; 100; -1; -1; -1; -1; 105; -1; 107; 108;
  109; -1; 111; -1; -1; -1; 115; 116; 117; 118; 119; -1; 22; 122; -1; -1; -1; -1; -1; 128; 30; -1; 32; -1; 34; -1; -1; 37; 38; 39; -1; 41;
  42; -1; -1; -1; -1; -1; 48; 49; 149; 150; 52; 53; -1; -1; -1; 57; -1; -1; -1; -1; 62; -1; -1; 65; 66; 67; 68; -1; -1; -1; -1; -1; 74; -1;
  76; -1; 78; -1; -1; -1; -1; 83; 84; 85; 86; -1; 88; -1; -1; -1; -1; -1; 94; -1; 96; 97; 98; 99; 100; -1; -1; -1; -1; 105; -1; 107; 108;
  109; -1; 111; -1; -1; -1; 115; 116; 117; 118; 119; -1; 22; -1; -1; 124; -1; -1; -1; 128; 30; -1; 32; -1; 34; -1; -1; 37; 38; 39; -1; 41;
  42; 43; -1; -1; -1; -1; 48; 49; 149; 150; 52; 53; -1; -1; -1; 57; -1; -1; -1; -1; 62; -1; -1; 65; 66; 67; 68; -1; -1; -1; -1; -1; 74; -1;
  76; -1; 78; -1; -1; -1; -1; 83; 84; 85; 86; -1; 88; -1; -1; -1; -1; -1; 94; -1; 96; 97; 98; 99; 100; -1; -1; -1; -1; 105; -1; 107; 108;
  109; -1; 111; -1; -1; -1; 115; 116; 117; 118; 119; -1; 22; -1; -1; -1; -1; -1; -1; 128; 30; -1; 32; -1; 34; -1; -1; 37; 38; 39; -1; 41;
  42; -1; -1; -1; -1; -1; 48; 49; 149; 150; 52; 53; -1; -1; -1; 57; -1; -1; -1; -1; 62; -1; -1; 65; 66; 67; 68; -1; -1; -1; -1; -1; 74; -1;
  76; -1; 78; -1; -1; -1; -1; 83; 84; 85; 86; -1; 88; -1; -1; -1; -1; -1; 94; -1; 96; 97; 98; 99; 100; -1; -1; -1; -1; 105; -1; 107; 108;
  109; -1; 111; -1; -1; -1; 115; 116; 117; 118; 119; -1; 121; -1; -1; -1; 22; -1; -1; 128; -1; -1; -1; -1; 30; -1; 32; -1; 34; -1; -1; 37;
  38; 39; -1; 41; 42; -1; -1; -1; 149; 150; 48; 49; -1; -1; 52; 53; -1; -1; -1; 57; -1; -1; -1; -1; 62; -1; -1; 65; 66; 67; 68; -1; -1; -1;
  -1; -1; 74; -1; 76; -1; 78; -1; -1; -1; -1; 83; 84; 85; 86; -1; 88; -1; -1; -1; -1; -1; 94; -1; 96; 97; 98; 99; 100; -1; -1; -1; -1; 105;
  -1; 107; 108; 109; -1; 111; -1; -1; -1; 115; 116; 117; 118; 119; -1; 22; -1; -1; -1; -1; -1; -1; 128; 30; 130; 32; -1; 34; -1; -1; 37;
  38; 39; -1; 41; 42; -1; -1; -1; -1; -1; 48; 49; 149; 150; 52; 53; -1; -1; -1; 57; -1; -1; -1; -1; 62; -1; -1; 65; 66; 67; 68; -1; -1; -1;
  -1; -1; 74; -1; 76; -1; 78; -1; -1; -1; -1; 83; 84; 85; 86; -1; 88; -1; -1; -1; -1; -1; 94; -1; 96; 97; 98; 99; 100; -1; -1; -1; -1; 105;
  -1; 107; 108; 109; -1; 111; -1; -1; -1; 115; 116; 117; 118; 119; -1; 22; 122; -1; -1; -1; -1; -1; 128; 30; -1; 32; -1; 34; -1; -1; 37;
  38; 39; -1; 41; 42; -1; -1; 45; -1; -1; 48; 49; 149; 150; 52; 53; -1; -1; -1; 57; -1; -1; -1; -1; 62; -1; -1; 65; 66; 67; 68; -1; -1; -1;
  -1; -1; 74; -1; 76; -1; 78; -1; -1; -1; -1; 83; 84; 85; 86; -1; 88; -1; -1; -1; -1; -1; 94; -1; 96; 97; 98; 99; 100; -1; -1; -1; -1; 105;
  -1; 107; 108; 109; -1; 111; -1; -1; -1; 115; 116; 117; 118; 119; -1; 22; -1; -1; -1; -1; -1; -1; 128; 30; -1; 32; -1; 34; -1; -1; 37; 38;
  39; -1; 41; 42; -1; -1; -1; -1; -1; 48; 49; 149; 150; 52; 53; -1; -1; -1; 57; -1; -1; -1; -1; 62; -1; -1; 65; 66; 67; 68; -1; -1; -1; -1;
  -1; 74; -1; 76; -1; 78; -1; -1; -1; -1; 83; 84; 85; 86; -1; 88; -1; -1; -1; -1; -1; 94; -1; 96; 97; 98; 99; 100; -1; -1; -1; -1; 105; -1;
  107; 108; 109; -1; 111; -1; -1; -1; 115; 116; 117; 118; 119; -1; 22; -1; -1; -1; -1; -1; -1; 128; 30; -1; 32; -1; 34; -1; -1; 37; 38; 39;
  -1; 41; 42; -1; -1; -1; -1; -1; 48; 49; 149; 150; 52; 53; -1; -1; -1; 57; -1; -1; -1; -1; 62; -1; -1; 65; 66; 67; 68; -1; -1; -1; -1; -1;
  74; -1; 76; -1; 78; -1; -1; -1; -1; 83; 84; 85; 86; -1; 88; -1; -1; -1; -1; -1; 94; -1; 96; 97; 98; 99; 100; -1; -1; -1; -1; 105; -1;
  107; 108; 109; -1; 111; -1; -1; -1; 115; 116; 117; 118; 119; -1; 22; -1; -1; -1; -1; -1; -1; 128; 30; -1; 32; -1; 34; -1; -1; 37; 38; 39;
  -1; 41; 42; -1; -1; -1; -1; -1; 48; 49; 149; 150; 52; 53; -1; -1; -1; 57; -1; -1; -1; -1; 62; -1; -1; 65; 66; 67; 68; -1; -1; -1; -1; -1;
  74; -1; 76; -1; 78; -1; -1; -1; -1; 83; 84; 85; 86; -1; 88; -1; -1; -1; -1; -1; 94; -1; 96; 97; 98; 99; 100; -1; -1; -1; -1; 105; -1;
  107; 108; 109; -1; 111; -1; -1; -1; 115; 116; 117; 118; 119; -1; -1; -1; -1; -1; -1; -1; -1; 128; -1; -1; -1; -1; -1; -1; -1; -1; -1; -1;
  -1; -1; -1; -1; -1; -1; -1; 24; 25; -1; 149; 150; 29; 30; 31; -1; 33; 34; 35; 36; 37; 38; 39; 40; 41; 42; 43; 44; 45; 46; 47; 48; 49; 50;
  51; 52; 53; 54; 55; 56; 57; 58; 59; 60; 61; 62; 63; 64; -1; -1; -1; -1; 69; 70; 71; 72; 73; 74; 75; 76; 77; -1; 79; 80; 81; 82; -1; 84;
  -1; 86; 87; 88; 89; 90; 91; 92; 93; -1; 95; 96; 97; 98; 99; 100; 101; 102; 103; 104; -1; 106; -1; 108; 109; 110; 111; 112; 113; 114; -1;
  -1; -1; -1; -1; 120; -1; -1; -1; -1; -1; -1; -1; -1; -1; -1; -1; -1; -1; -1; -1; -1; 137; -1; -1; -1; -1; -1; -1; -1; -1; 29; 30; 31;
  149; 33; 34; 35; 36; 37; 38; 39; 40; 41; 42; 43; 44; 45; 46; 47; 48; 49; 50; 51; 52; 53; 54; 55; 56; 57; 58; 59; 60; 61; 62; 63; 64; -1;
  -1; -1; -1; 69; 70; 71; 72; 73; 74; 75; 76; 77; -1; 79; 80; 81; 82; -1; 84; -1; 86; 87; 88; 89; 90; 91; 92; 93; -1; 95; 96; 97; 98; 99;
  100; 101; 102; 103; 104; -1; 106; -1; 108; 109; 110; 111; 112; 113; 114; -1; -1; -1; -1; -1; 120; -1; -1; -1; -1; 125; -1; -1; 128; -1;
  -1; -1; -1; -1; -1; -1; -1; 137; -1; -1; -1; -1; -1; -1; -1; -1; 29; 30; 31; 149; 33; 34; 35; 36; 37; 38; 39; 40; 41; 42; 43; 44; 45; 46;
  47; 48; 49; 50; 51; 52; 53; 54; 55; 56; 57; 58; 59; 60; 61; 62; 63; 64; -1; -1; -1; -1; 69; 70; 71; 72; 73; 74; 75; 76; 77; -1; 79; 80;
  81; 82; -1; 84; -1; 86; 87; 88; 89; 90; 91; 92; 93; -1; 95; 96; 97; 98; 99; 100; 101; 102; 103; 104; -1; 106; -1; 108; 109; 110; 111;
  112; 113; 114; -1; -1; -1; -1; -1; 120; -1; -1; -1; -1; -1; -1; -1; 128; 129; -1; -1; -1; -1; -1; -1; -1; 137; -1; -1; -1; -1; -1; -1;
  -1; -1; 29; 30; 31; 149; 33; 34; 35; 36; 37; 38; 39; 40; 41; 42; 43; 44; 45; 46; 47; 48; 49; 50; 51; 52; 53; 54; 55; 56; 57; 58; 59; 60;
  61; 62; 63; 64; -1; -1; -1; -1; 69; 70; 71; 72; 73; 74; 75; 76; 77; -1; 79; 80; 81; 82; -1; 84; -1; 86; 87; 88; 89; 90; 91; 92; 93; -1;
  95; 96; 97; 98; 99; 100; 101; 102; 103; 104; -1; 106; -1; 108; 109; 110; 111; 112; 113; 114; -1; -1; -1; -1; -1; 120; -1; -1; -1; -1; 29;
  -1; 31; 128; 33; -1; 35; 36; -1; -1; -1; -1; 137; -1; 43; 44; 45; 46; -1; -1; -1; 50; 51; -1; 149; 54; 55; 56; -1; 58; 59; 60; 61; -1;
  -1; 64; -1; -1; -1; -1; 69; 70; 71; 72; 73; -1; 75; -1; 77; -1; 79; 80; 81; 82; -1; -1; -1; -1; 87; -1; -1; 90; 91; 92; 93; -1; 95; -1;
  -1; -1; -1; -1; 101; 102; 103; 104; -1; 106; -1; -1; -1; -1; -1; 112; 113; 114; -1; -1; 29; -1; 31; -1; 33; -1; 35; 36; 125; -1; -1; -1;
  -1; -1; 43; 44; 45; 46; -1; -1; 137; 50; 51; -1; -1; 54; 55; 56; 145; 58; 59; 60; 61; -1; -1; 64; -1; -1; -1; -1; 69; 70; 71; 72; 73; -1;
  75; -1; 77; -1; 79; 80; 81; 82; -1; -1; -1; -1; 87; -1; -1; 90; 91; 92; 93; -1; 95; -1; -1; -1; -1; -1; 101; 102; 103; 104; -1; 106; -1;
  -1; -1; -1; -1; 112; 113; 114; -1; -1; -1; -1; -1; -1; -1; -1; -1; -1; 125; -1; -1; -1; -1; -1; -1; -1; -1; -1; -1; -1; 137; -1; -1; -1;
  -1; -1; -1; -1; 145].
(** line 11162 *)
Definition yystos : list Z := [
  0; 149; 154; 155; 228; 375; 0; 154; 51; 124; 229; 230; 231; 16; 236; 4; 150; 232; 233; 234; 235; 310; 373; 133; 315; 75; 35; 59; 70; 237;
  125; 232; 126; 140; 316; 106; 106; 106; 61; 238; 234; 17; 18; 318; 140; 317; 71; 121; 127; 318; 133; 36; 317; 60; 239; 240; 31; 149; 150;
  241; 247; 248; 249; 372; 374; 227; 72; 242; 142; 142; 137; 124; 56; 243; 244; 245; 247; 160; 199; 203; 204; 205; 206; 207; 250; 251; 260;
  261; 262; 372; 374; 248; 125; 142; 245; 64; 250; 22; 30; 32; 34; 37; 38; 39; 41; 42; 48; 49; 52; 53; 57; 62; 65; 66; 67; 68; 74; 76; 78;
  83; 84; 85; 86; 88; 94; 96; 97; 98; 99; 100; 105; 107; 108; 109; 111; 115; 116; 117; 118; 119; 121; 124; 128; 149; 159; 187; 188; 197;
  198; 202; 208; 213; 214; 215; 216; 252; 254; 258; 263; 264; 272; 274; 278; 282; 283; 286; 287; 288; 292; 293; 294; 295; 299; 300; 301;
  302; 306; 313; 314; 319; 320; 321; 322; 324; 325; 326; 327; 328; 329; 330; 331; 332; 372; 373; 375; 208; 263; 372; 375; 246; 375; 103;
  103; 124; 91; 124; 87; 124; 69; 103; 87; 102; 124; 126; 333; 357; 87; 124; 333; 357; 43; 149; 157; 158; 159; 161; 162; 263; 375; 376;
  150; 157; 209; 210; 211; 212; 249; 263; 372; 16; 303; 138; 121; 121; 263; 138; 124; 121; 333; 59; 70; 263; 138; 130; 138; 263; 121; 138;
  124; 307; 124; 265; 296; 297; 298; 373; 122; 276; 279; 280; 281; 373; 149; 157; 159; 375; 275; 276; 373; 263; 265; 373; 333; 45; 122;
  125; 263; 265; 289; 290; 291; 4; 5; 6; 7; 9; 11; 20; 31; 34; 46; 47; 54; 63; 64; 73; 80; 90; 101; 110; 120; 124; 126; 149; 200; 217; 218;
  219; 221; 226; 253; 255; 259; 263; 273; 277; 323; 334; 335; 336; 337; 338; 339; 340; 341; 342; 343; 347; 348; 349; 350; 351; 352; 353;
  355; 357; 358; 359; 360; 368; 369; 374; 375; 87; 87; 263; 265; 125; 289; 87; 87; 124; 138; 125; 137; 141; 141; 33; 95; 114; 305; 24; 25;
  165; 166; 200; 161; 263; 121; 166; 6; 7; 9; 11; 24; 25; 34; 40; 47; 76; 89; 120; 124; 141; 149; 150; 157; 202; 253; 256; 257; 263; 266;
  267; 268; 269; 273; 277; 315; 323; 374; 375; 124; 270; 263; 263; 166; 372; 263; 22; 372; 121; 34; 76; 149; 150; 202; 266; 267; 372; 375;
  4; 253; 308; 309; 310; 311; 312; 373; 284; 285; 373; 125; 137; 263; 132; 370; 125; 137; 126; 138; 125; 137; 87; 370; 50; 89; 50; 89; 125;
  137; 58; 344; 40; 263; 40; 333; 267; 13; 44; 45; 122; 201; 337; 336; 124; 124; 370; 137; 112; 145; 345; 77; 146; 346; 344; 263; 123; 130;
  138; 263; 265; 263; 265; 125; 263; 265; 263; 265; 24; 25; 28; 163; 164; 167; 168; 171; 173; 174; 176; 178; 149; 376; 210; 249; 4; 253;
  304; 138; 267; 267; 267; 271; 126; 125; 137; 137; 141; 145; 137; 145; 138; 138; 336; 267; 138; 138; 253; 308; 125; 308; 126; 125; 137;
  126; 122; 265; 253; 263; 277; 371; 122; 281; 253; 277; 276; 263; 137; 34; 149; 349; 349; 122; 291; 347; 124; 54; 267; 333; 361; 124; 362;
  137; 125; 137; 127; 144; 222; 223; 256; 127; 122; 340; 342; 79; 130; 349; 354; 356; 374; 157; 263; 165; 263; 157; 125; 137; 24; 50; 89;
  169; 129; 165; 125; 267; 4; 256; 267; 267; 267; 267; 267; 24; 25; 125; 125; 311; 285; 4; 253; 137; 141; 370; 127; 127; 122; 290; 370;
  122; 157; 197; 212; 220; 263; 375; 40; 122; 363; 364; 373; 337; 122; 138; 225; 373; 125; 137; 125; 137; 356; 50; 89; 177; 89; 113; 170;
  170; 170; 50; 89; 179; 120; 180; 164; 263; 127; 127; 127; 127; 298; 267; 137; 137; 137; 141; 125; 138; 267; 125; 137; 125; 137; 333; 365;
  366; 137; 138; 224; 138; 223; 337; 124; 187; 189; 190; 191; 193; 50; 89; 175; 50; 89; 172; 172; 104; 137; 280; 122; 290; 124; 189; 267;
  149; 363; 363; 29; 89; 93; 367; 337; 224; 225; 373; 24; 25; 29; 30; 31; 33; 34; 35; 36; 37; 38; 39; 40; 41; 42; 43; 44; 45; 46; 47; 48;
  49; 50; 51; 52; 53; 54; 55; 56; 57; 58; 59; 60; 61; 62; 63; 64; 69; 70; 71; 72; 73; 74; 75; 76; 77; 79; 80; 81; 82; 84; 86; 87; 88; 89;
  90; 91; 92; 93; 95; 96; 97; 98; 99; 100; 101; 102; 103; 104; 106; 108; 109; 110; 111; 112; 113; 114; 120; 137; 149; 165; 186; 192; 194;
  195; 196; 263; 267; 377; 270; 349; 124; 156; 137; 137; 267; 125; 196; 137; 125; 195; 30; 34; 37; 38; 39; 40; 41; 42; 47; 48; 49; 52; 53;
  57; 62; 63; 74; 76; 84; 86; 88; 89; 96; 97; 98; 99; 100; 108; 109; 110; 111; 120; 128; 149; 181; 182; 183; 184; 185; 186; 122; 148; 181;
  125; 182; 165; 186; 137; 125; 129; 290; 137].
(** line 11255 *)
Definition yyr1 : list Z := [
  0; 153; 154; 154; 155; 156; 157; 157; 157; 158; 159; 159; 160; 161; 161; 162; 163; 163; 164; 164; 164; 164; 164; 164; 165; 165; 166; 166;
  167; 168; 168; 169; 169; 169; 170; 170; 170; 171; 172; 172; 172; 173; 174; 175; 175; 175; 176; 177; 177; 177; 178; 179; 179; 179; 180;
  180; 181; 181; 182; 182; 183; 184; 185; 185; 185; 186; 186; 187; 187; 188; 189; 189; 190; 190; 191; 192; 193; 194; 194; 195; 195; 196;
  196; 197; 197; 198; 199; 200; 201; 201; 201; 201; 201; 202; 202; 203; 203; 203; 203; 204; 205; 206; 207; 208; 209; 209; 210; 210; 211;
  211; 212; 212; 213; 214; 215; 216; 216; 217; 217; 218; 218; 218; 219; 220; 220; 220; 220; 220; 220; 220; 221; 221; 222; 222; 223; 223;
  224; 224; 225; 225; 226; 226; 226; 227; 228; 229; 229; 229; 230; 231; 232; 232; 233; 233; 233; 234; 235; 236; 236; 237; 237; 237; 237;
  238; 238; 239; 239; 240; 240; 240; 241; 241; 242; 242; 243; 243; 244; 244; 245; 246; 246; 247; 247; 248; 249; 249; 249; 250; 250; 251;
  251; 251; 251; 251; 251; 252; 252; 252; 253; 253; 254; 255; 256; 256; 257; 257; 257; 258; 259; 260; 261; 262; 263; 263; 263; 263; 263;
  264; 264; 264; 264; 264; 264; 264; 264; 264; 264; 264; 264; 264; 264; 264; 264; 264; 264; 264; 264; 264; 264; 264; 264; 264; 264; 264;
  264; 264; 264; 264; 265; 266; 266; 266; 266; 266; 266; 266; 266; 266; 266; 266; 266; 266; 266; 266; 266; 266; 266; 266; 266; 266; 266;
  266; 266; 266; 267; 267; 267; 268; 268; 269; 269; 270; 271; 271; 272; 273; 273; 274; 274; 275; 275; 276; 276; 277; 277; 278; 279; 279;
  279; 279; 280; 280; 281; 281; 282; 283; 283; 284; 284; 285; 285; 286; 287; 288; 288; 289; 289; 289; 289; 289; 289; 289; 289; 289; 290;
  290; 291; 291; 291; 291; 291; 291; 291; 292; 292; 293; 293; 294; 294; 295; 296; 297; 297; 297; 298; 298; 299; 300; 301; 301; 301; 302;
  303; 303; 304; 304; 305; 305; 305; 305; 306; 307; 307; 308; 308; 309; 309; 309; 310; 311; 311; 312; 313; 314; 315; 316; 317; 317; 318;
  318; 319; 320; 321; 322; 323; 324; 325; 326; 327; 328; 328; 329; 329; 329; 329; 329; 329; 329; 329; 329; 329; 329; 329; 329; 330; 331;
  331; 332; 332; 332; 332; 332; 332; 332; 332; 333; 334; 334; 335; 336; 336; 336; 337; 337; 338; 338; 339; 340; 340; 341; 342; 342; 343;
  344; 345; 345; 346; 346; 347; 347; 348; 348; 348; 348; 348; 348; 348; 348; 348; 349; 349; 349; 349; 349; 349; 349; 349; 349; 349; 350;
  351; 352; 353; 353; 354; 354; 355; 355; 356; 356; 357; 358; 359; 360; 360; 361; 362; 362; 362; 362; 363; 363; 364; 365; 366; 366; 367;
  367; 367; 367; 368; 369; 370; 370; 371; 371; 371; 372; 373; 374; 375; 376; 377; 377; 377; 377; 377; 377; 377; 377; 377; 377; 377; 377;
  377; 377; 377; 377; 377; 377; 377; 377; 377; 377; 377; 377; 377; 377; 377; 377; 377; 377; 377; 377; 377; 377; 377; 377; 377; 377; 377;
  377; 377; 377; 377; 377; 377; 377; 377; 377; 377; 377; 377; 377; 377; 377; 377; 377; 377; 377; 377; 377; 377; 377; 377; 377; 377; 377;
  377; 377; 377; 377; 377; 377; 377; 377; 377; 377; 377].
(** line 11318 *)
Definition yyr2 : list Z := [
  0; 2; 1; 2; 10; 3; 1; 1; 1; 3; 1; 1; 3; 1; 1; 5; 1; 3; 1; 1; 1; 1; 1; 1; 1; 1; 1; 3; 2; 1; 2; 1; 2; 0; 1; 1; 0; 4; 1; 2; 0; 4; 4; 1; 2;
  0; 3; 1; 2; 0; 3; 1; 1; 0; 3; 0; 1; 2; 1; 1; 3; 2; 1; 2; 0; 1; 1; 1; 1; 3; 1; 1; 1; 1; 5; 2; 3; 1; 2; 1; 1; 1; 1; 1; 1; 3; 4; 3; 1; 3; 1;
  3; 5; 3; 3; 1; 1; 1; 1; 4; 5; 5; 4; 3; 1; 3; 3; 1; 1; 1; 1; 1; 1; 3; 3; 1; 1; 1; 1; 1; 1; 1; 5; 3; 3; 1; 1; 1; 1; 0; 1; 4; 1; 3; 2; 4; 2;
  0; 1; 3; 2; 3; 5; 0; 2; 1; 1; 0; 3; 2; 1; 2; 1; 1; 1; 1; 4; 2; 0; 2; 2; 2; 0; 2; 0; 3; 0; 3; 3; 0; 1; 0; 3; 0; 1; 0; 1; 2; 3; 1; 2; 1; 3;
  1; 1; 3; 1; 1; 2; 1; 1; 1; 1; 1; 1; 1; 1; 1; 1; 1; 4; 4; 1; 3; 1; 1; 1; 3; 3; 3; 4; 4; 1; 1; 1; 1; 1; 1; 1; 1; 1; 1; 1; 1; 1; 1; 1; 1; 1;
  1; 1; 1; 1; 1; 1; 1; 1; 1; 1; 1; 1; 1; 1; 1; 1; 1; 1; 1; 2; 1; 1; 1; 1; 1; 1; 1; 2; 1; 4; 1; 1; 1; 1; 3; 3; 3; 1; 1; 3; 1; 1; 1; 1; 1; 1;
  1; 1; 3; 3; 3; 3; 3; 1; 2; 1; 1; 1; 1; 4; 1; 3; 4; 4; 1; 1; 4; 1; 4; 6; 2; 1; 3; 1; 1; 1; 2; 5; 1; 3; 4; 4; 2; 1; 3; 4; 1; 4; 6; 8; 10;
  4; 6; 2; 4; 1; 3; 1; 2; 3; 1; 2; 3; 3; 3; 3; 3; 4; 3; 3; 4; 1; 1; 3; 5; 1; 3; 3; 1; 2; 3; 3; 5; 2; 0; 1; 1; 1; 1; 1; 0; 2; 3; 4; 1; 2; 1;
  1; 1; 1; 1; 1; 4; 1; 1; 4; 2; 3; 0; 1; 1; 1; 2; 1; 1; 1; 1; 1; 1; 1; 1; 1; 1; 1; 1; 1; 1; 1; 1; 1; 1; 1; 1; 1; 1; 2; 2; 1; 4; 4; 4; 4; 4;
  4; 4; 4; 4; 1; 1; 1; 1; 3; 5; 1; 2; 1; 3; 1; 1; 3; 1; 1; 2; 1; 2; 1; 1; 1; 1; 1; 3; 1; 1; 1; 1; 1; 1; 1; 1; 1; 1; 1; 1; 1; 1; 1; 1; 1; 1;
  1; 2; 1; 3; 1; 2; 1; 2; 1; 1; 1; 1; 2; 1; 2; 3; 3; 1; 0; 3; 5; 3; 1; 3; 2; 2; 1; 0; 1; 1; 1; 0; 2; 2; 2; 0; 1; 1; 3; 1; 1; 1; 1; 1; 1; 1;
  1; 1; 1; 1; 1; 1; 1; 1; 1; 1; 1; 1; 1; 1; 1; 1; 1; 1; 1; 1; 1; 1; 1; 1; 1; 1; 1; 1; 1; 1; 1; 1; 1; 1; 1; 1; 1; 1; 1; 1; 1; 1; 1; 1; 1; 1;
  1; 1; 1; 1; 1; 1; 1; 1; 1; 1; 1; 1; 1; 1; 1; 1; 1; 1; 1; 1; 1; 1; 1; 1; 1; 1; 1; 1; 1].
(** lines 5015-5020, 9895-9897 *)
Definition yy_tables : tables := Tables (array yypact) (array yydefact) (array yypgoto) (array yydefgoto) (array yytable) (array yycheck)
  (array yyr1) (array yyr2) (-663) (-502) 5042 6 153.

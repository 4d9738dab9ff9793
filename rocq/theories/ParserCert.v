(** Generated by tools/gen_parser_cert.py. Certificates: nothing is claimed here; ParserValid.v and ParserComplete.v check them *)
From Coq Require Import List ZArith.
Import ListNotations.
Local Open Scope Z_scope.
(** The states before each state; the potential of each symbol and state (ParserValid.v). *)
Definition cert_preds : list (list Z) := [
  []; [0; 3; 95; 258; 370; 432; 434; 449; 541; 544; 650]; [0]; [0; 3]; [0; 3]; [0; 3]; [2]; [3]; [4]; [5]; [5]; [5]; [5]; [8]; [8]; [9; 18; 32];
  [9; 18; 89; 90; 140; 150; 175; 195; 203; 205; 207; 210; 212; 216; 217; 243; 249; 250; 253; 260; 265; 281; 301; 341; 353; 354; 359; 360; 443; 448; 452; 453; 460; 499; 500; 543; 557; 565; 570; 576; 598; 620; 671; 672; 673; 679; 681; 687; 688; 705; 816; 817; 871; 875];
  [9]; [9; 18]; [9; 18]; [9; 18]; [9; 18]; [9; 18];
  [11; 246; 256; 307; 378; 388; 392; 421; 465; 476; 522; 525; 526; 527; 528; 529; 530; 621; 635; 674; 691; 709; 742; 803; 806]; [11]; [13]; [14];
  [14]; [14]; [14]; [17]; [18]; [22]; [23]; [23]; [26]; [27]; [28]; [29]; [29]; [32]; [33; 44]; [33; 44]; [33]; [34; 49]; [34]; [38]; [39]; [40];
  [44]; [45]; [47]; [49]; [51]; [51]; [51]; [53]; [53; 66; 67; 70; 74; 85; 252; 254; 365];
  [53; 66; 67; 70; 74; 85; 365; 370; 449; 455; 457; 487; 489; 532; 536; 541; 544; 585; 700]; [53]; [53]; [53; 66; 74]; [53; 66; 70; 74];
  [53; 66; 70; 74; 365]; [53; 66; 70; 74; 141; 364; 365]; [54]; [55]; [55]; [56]; [59]; [60; 76]; [63; 238]; [65]; [66]; [66]; [66]; [66; 74];
  [67; 85]; [67; 85]; [67; 85]; [67; 85]; [67; 85]; [67; 85]; [67; 85]; [67]; [67; 85]; [67; 85]; [67; 85]; [67; 85]; [67; 85]; [67; 85]; [70]; [71];
  [73]; [74]; [76]; [85];
  [89; 90; 140; 141; 150; 175; 195; 210; 212; 213; 216; 217; 243; 246; 249; 250; 253; 265; 281; 301; 311; 312; 341; 353; 354; 359; 360; 364; 412; 445; 453; 460; 461; 476; 481; 484; 499; 500; 525; 557; 565; 572; 598; 648; 650; 672; 673; 674; 685; 691; 709; 803; 806; 817; 871; 875];
  [89; 90; 140; 141; 150; 175; 195; 206; 210; 212; 213; 216; 217; 243; 246; 249; 250; 253; 256; 265; 281; 301; 307; 311; 312; 341; 353; 354; 359; 360; 364; 378; 388; 392; 412; 421; 445; 453; 460; 461; 465; 476; 481; 484; 499; 500; 501; 522; 525; 526; 527; 528; 529; 530; 557; 565; 572; 598; 621; 635; 648; 672; 673; 674; 685; 742; 803; 817; 871; 875];
  [89; 90; 140; 141; 150; 175; 195; 210; 212; 213; 216; 217; 243; 246; 249; 250; 253; 265; 281; 301; 311; 312; 341; 353; 354; 359; 360; 364; 412; 445; 453; 460; 461; 476; 481; 484; 499; 500; 525; 557; 565; 572; 598; 648; 672; 673; 685; 691; 709; 803; 806; 817; 871; 875];
  [89; 90; 140; 141; 150; 175; 195; 210; 212; 216; 217; 243; 249; 250; 253; 265; 281; 301; 341; 353; 354; 359; 360; 364; 445; 453; 460; 499; 500; 557; 565; 598; 672; 673; 817; 871; 875];
  [89; 90; 140; 141; 150; 175; 195; 210; 212; 213; 216; 217; 243; 246; 249; 250; 253; 265; 281; 301; 311; 312; 341; 353; 354; 359; 360; 364; 412; 445; 453; 460; 461; 476; 481; 484; 499; 500; 525; 557; 565; 572; 598; 648; 672; 673; 685; 803; 817; 871; 875];
  [89; 90; 140; 141; 150; 175; 195; 210; 212; 213; 216; 217; 243; 246; 249; 250; 253; 265; 281; 301; 311; 312; 341; 353; 354; 359; 360; 364; 412; 445; 453; 460; 461; 476; 481; 484; 499; 500; 525; 557; 565; 572; 598; 648; 672; 673; 685; 803; 817; 871; 875];
  [89; 90; 140; 141; 150; 175; 195; 210; 212; 213; 216; 217; 243; 246; 249; 250; 253; 265; 281; 301; 311; 312; 341; 353; 354; 359; 360; 364; 412; 445; 453; 460; 461; 476; 481; 484; 499; 500; 525; 557; 565; 572; 598; 648; 672; 673; 685; 803; 817; 871; 875];
  [89; 90; 140; 141; 150; 175; 195; 210; 212; 213; 216; 217; 243; 246; 249; 250; 253; 265; 281; 301; 311; 312; 341; 353; 354; 359; 360; 364; 412; 445; 453; 460; 461; 476; 481; 484; 499; 500; 525; 557; 565; 572; 598; 648; 672; 673; 685; 803; 817; 871; 875];
  [89; 90; 140; 141; 150; 175; 195; 210; 212; 213; 216; 217; 243; 246; 249; 250; 253; 265; 281; 301; 311; 312; 341; 353; 354; 359; 360; 364; 412; 445; 453; 460; 461; 476; 481; 484; 499; 500; 525; 557; 565; 572; 598; 648; 672; 673; 685; 803; 817; 871; 875];
  [89; 90; 140; 141; 150; 175; 195; 210; 212; 213; 216; 217; 243; 246; 249; 250; 253; 265; 281; 301; 311; 312; 341; 353; 354; 359; 360; 364; 412; 445; 453; 460; 461; 476; 481; 484; 499; 500; 525; 557; 565; 572; 598; 648; 672; 673; 685; 803; 817; 871; 875];
  [89; 90; 140; 141; 150; 175; 195; 210; 212; 213; 216; 217; 243; 246; 249; 250; 253; 265; 281; 301; 311; 312; 341; 353; 354; 359; 360; 364; 412; 445; 453; 460; 461; 476; 481; 484; 499; 500; 525; 557; 565; 572; 598; 648; 672; 673; 685; 803; 817; 871; 875];
  [89; 90; 140; 141; 150; 175; 195; 210; 212; 213; 216; 217; 243; 246; 249; 250; 253; 265; 281; 301; 311; 312; 341; 353; 354; 359; 360; 364; 412; 445; 453; 460; 461; 476; 481; 484; 499; 500; 525; 557; 565; 572; 598; 648; 672; 673; 685; 803; 817; 871; 875];
  [89; 90; 140; 141; 150; 175; 195; 210; 212; 213; 216; 217; 243; 246; 249; 250; 253; 265; 281; 301; 311; 312; 341; 353; 354; 359; 360; 364; 412; 445; 453; 460; 461; 476; 481; 484; 499; 500; 525; 557; 565; 572; 598; 648; 672; 673; 685; 803; 817; 871; 875];
  [89; 90; 140; 141; 150; 175; 195; 210; 212; 213; 216; 217; 243; 246; 249; 250; 253; 265; 281; 301; 311; 312; 341; 353; 354; 359; 360; 364; 412; 445; 453; 460; 461; 476; 481; 484; 499; 500; 525; 557; 565; 572; 598; 648; 672; 673; 685; 803; 817; 871; 875];
  [89; 90; 140; 141; 150; 175; 195; 210; 212; 213; 216; 217; 243; 246; 249; 250; 253; 265; 281; 301; 311; 312; 341; 353; 354; 359; 360; 364; 412; 445; 453; 460; 461; 476; 481; 484; 499; 500; 525; 557; 565; 572; 598; 648; 672; 673; 685; 803; 817; 871; 875];
  [89; 90; 140; 141; 150; 175; 195; 210; 212; 213; 216; 217; 243; 246; 249; 250; 253; 265; 281; 301; 311; 312; 341; 353; 354; 359; 360; 364; 412; 445; 453; 460; 461; 476; 481; 484; 499; 500; 525; 557; 565; 572; 598; 648; 672; 673; 685; 691; 709; 803; 806; 817; 871; 875];
  [89; 90; 140; 141; 150; 175; 195; 210; 212; 213; 216; 217; 243; 246; 249; 250; 253; 265; 281; 301; 311; 312; 341; 353; 354; 359; 360; 364; 412; 445; 453; 460; 461; 476; 481; 484; 499; 500; 525; 557; 565; 572; 598; 648; 672; 673; 685; 691; 709; 803; 806; 817; 871; 875];
  [89; 90; 140; 141; 150; 175; 195; 210; 212; 213; 216; 217; 243; 246; 249; 250; 253; 265; 281; 301; 311; 312; 341; 353; 354; 359; 360; 364; 412; 445; 453; 460; 461; 476; 481; 484; 499; 500; 525; 557; 565; 572; 598; 648; 672; 673; 685; 691; 709; 803; 806; 817; 871; 875];
  [89; 90; 140; 141; 150; 175; 195; 210; 212; 213; 216; 217; 243; 246; 249; 250; 253; 265; 281; 301; 311; 312; 341; 353; 354; 359; 360; 364; 412; 445; 453; 460; 461; 476; 481; 484; 499; 500; 525; 557; 565; 572; 598; 648; 672; 673; 685; 691; 709; 803; 806; 817; 871; 875];
  [89; 90; 140; 141; 150; 175; 195; 210; 212; 213; 216; 217; 243; 246; 249; 250; 253; 265; 281; 301; 311; 312; 341; 353; 354; 359; 360; 364; 412; 445; 453; 460; 461; 476; 481; 484; 499; 500; 525; 557; 565; 572; 598; 648; 672; 673; 685; 803; 817; 871; 875];
  [89; 90; 140; 141; 150; 175; 195; 210; 212; 213; 216; 217; 243; 249; 250; 253; 265; 281; 301; 311; 312; 341; 353; 354; 359; 360; 364; 412; 445; 453; 460; 461; 481; 484; 499; 500; 557; 565; 572; 598; 648; 672; 673; 685; 817; 871; 875];
  [89; 90; 140; 141; 150; 175; 195; 210; 212; 213; 216; 217; 243; 246; 249; 250; 253; 265; 281; 301; 311; 312; 341; 353; 354; 359; 360; 364; 412; 445; 453; 460; 461; 476; 481; 484; 499; 500; 525; 557; 565; 572; 598; 648; 672; 673; 685; 691; 709; 803; 806; 817; 871; 875];
  [89; 90; 140; 141; 150; 175; 195; 210; 212; 213; 216; 217; 243; 246; 249; 250; 253; 265; 281; 301; 311; 312; 341; 353; 354; 359; 360; 364; 412; 445; 453; 460; 461; 476; 481; 484; 499; 500; 525; 557; 565; 572; 598; 648; 672; 673; 685; 691; 709; 803; 806; 817; 871; 875];
  [89; 90; 140; 141; 150; 175; 195; 210; 212; 213; 216; 217; 243; 246; 249; 250; 253; 265; 281; 301; 311; 312; 341; 353; 354; 359; 360; 364; 412; 445; 453; 460; 461; 476; 481; 484; 499; 500; 525; 557; 565; 572; 598; 648; 672; 673; 685; 803; 817; 871; 875];
  [89; 90; 140; 141; 150; 175; 195; 210; 212; 213; 216; 217; 243; 246; 249; 250; 253; 265; 281; 301; 311; 312; 341; 353; 354; 359; 360; 364; 412; 445; 453; 460; 461; 476; 481; 484; 499; 500; 525; 557; 565; 572; 598; 648; 672; 673; 685; 691; 709; 803; 806; 817; 871; 875];
  [89; 90; 140; 141; 150; 175; 195; 210; 212; 213; 216; 217; 243; 246; 249; 250; 253; 265; 281; 301; 311; 312; 341; 353; 354; 359; 360; 364; 412; 445; 453; 460; 461; 476; 481; 484; 499; 500; 525; 557; 565; 572; 598; 648; 672; 673; 685; 803; 817; 871; 875];
  [89; 90; 140; 141; 150; 175; 195; 210; 212; 213; 216; 217; 243; 246; 249; 250; 253; 265; 281; 301; 311; 312; 341; 353; 354; 359; 360; 364; 412; 445; 453; 460; 461; 476; 481; 484; 499; 500; 525; 557; 565; 572; 598; 648; 672; 673; 685; 803; 817; 871; 875];
  [89; 90; 140; 141; 150; 175; 195; 210; 212; 213; 216; 217; 243; 246; 249; 250; 253; 265; 281; 301; 311; 312; 341; 353; 354; 359; 360; 364; 412; 445; 453; 460; 461; 476; 481; 484; 499; 500; 525; 557; 565; 572; 598; 648; 672; 673; 685; 691; 709; 803; 806; 817; 871; 875];
  [89; 90; 140; 141; 150; 175; 195; 210; 212; 213; 216; 217; 243; 246; 249; 250; 253; 265; 281; 301; 311; 312; 341; 353; 354; 359; 360; 364; 412; 445; 453; 460; 461; 476; 481; 484; 499; 500; 525; 557; 565; 572; 598; 648; 672; 673; 685; 803; 817; 871; 875];
  [89; 90; 140; 141; 150; 175; 195; 210; 212; 213; 216; 217; 243; 246; 249; 250; 253; 265; 281; 301; 311; 312; 341; 353; 354; 359; 360; 364; 412; 445; 453; 460; 461; 476; 481; 484; 499; 500; 525; 557; 565; 572; 598; 648; 672; 673; 685; 803; 817; 871; 875];
  [89; 90; 140; 141; 150; 175; 195; 210; 212; 213; 216; 217; 243; 246; 249; 250; 253; 265; 281; 301; 311; 312; 341; 353; 354; 359; 360; 364; 412; 445; 453; 460; 461; 476; 481; 484; 499; 500; 525; 557; 565; 572; 598; 648; 672; 673; 685; 803; 817; 871; 875];
  [89; 90; 140; 141; 150; 175; 195; 210; 212; 213; 216; 217; 243; 246; 249; 250; 253; 265; 281; 301; 311; 312; 341; 353; 354; 359; 360; 364; 412; 445; 453; 460; 461; 476; 481; 484; 499; 500; 525; 557; 565; 572; 598; 648; 672; 673; 685; 803; 817; 871; 875];
  [89; 90; 140; 141; 150; 175; 195; 210; 212; 213; 216; 217; 243; 246; 249; 250; 253; 265; 281; 301; 311; 312; 341; 353; 354; 359; 360; 364; 412; 445; 453; 460; 461; 476; 481; 484; 499; 500; 525; 557; 565; 572; 598; 648; 672; 673; 685; 803; 817; 871; 875];
  [89; 90; 140; 141; 150; 175; 195; 210; 212; 213; 216; 217; 243; 246; 249; 250; 253; 265; 281; 301; 311; 312; 341; 353; 354; 359; 360; 364; 412; 445; 453; 460; 461; 476; 481; 484; 499; 500; 525; 557; 565; 572; 598; 648; 672; 673; 685; 691; 709; 803; 806; 817; 871; 875];
  [89; 90; 140; 141; 150; 175; 195; 210; 212; 213; 216; 217; 243; 246; 249; 250; 253; 265; 281; 301; 311; 312; 341; 353; 354; 359; 360; 364; 412; 445; 453; 460; 461; 476; 481; 484; 499; 500; 525; 557; 565; 572; 598; 648; 672; 673; 685; 691; 709; 803; 806; 817; 871; 875];
  [89; 90; 140; 141; 150; 175; 195; 210; 212; 213; 216; 217; 243; 246; 249; 250; 253; 265; 281; 301; 311; 312; 341; 353; 354; 359; 360; 364; 412; 445; 453; 460; 461; 476; 481; 484; 499; 500; 525; 557; 565; 572; 598; 648; 672; 673; 685; 803; 817; 871; 875];
  [89; 90; 140; 141; 150; 175; 195; 210; 212; 213; 216; 217; 243; 246; 249; 250; 253; 265; 281; 301; 311; 312; 341; 353; 354; 359; 360; 364; 412; 445; 453; 460; 461; 476; 481; 484; 499; 500; 525; 557; 565; 572; 598; 648; 672; 673; 685; 803; 817; 871; 875];
  [89; 90; 140; 141; 150; 175; 195; 206; 210; 212; 213; 216; 217; 243; 246; 249; 250; 253; 256; 265; 281; 301; 307; 311; 312; 341; 353; 354; 359; 360; 364; 378; 388; 392; 412; 421; 445; 453; 460; 461; 465; 476; 481; 484; 499; 500; 501; 522; 525; 526; 527; 528; 529; 530; 557; 565; 572; 598; 621; 635; 648; 672; 673; 674; 685; 742; 803; 817; 871; 875];
  [89; 90; 140; 141; 150; 175; 195; 210; 212; 213; 216; 217; 243; 246; 249; 250; 253; 265; 281; 301; 311; 312; 341; 353; 354; 359; 360; 364; 412; 445; 453; 460; 461; 476; 481; 484; 499; 500; 525; 557; 565; 572; 598; 648; 672; 673; 685; 691; 709; 803; 806; 817; 871; 875];
  [89; 90; 140; 141; 150; 175; 195; 210; 212; 213; 216; 217; 243; 246; 249; 250; 253; 265; 281; 301; 311; 312; 341; 353; 354; 359; 360; 364; 412; 445; 453; 460; 461; 476; 481; 484; 499; 500; 525; 557; 565; 572; 598; 648; 672; 673; 685; 691; 709; 803; 806; 817; 871; 875];
  [89; 90; 140; 141; 150; 175; 195; 210; 212; 213; 216; 217; 243; 246; 249; 250; 253; 265; 281; 301; 311; 312; 341; 353; 354; 359; 360; 364; 412; 445; 453; 460; 461; 476; 481; 484; 499; 500; 525; 557; 565; 572; 598; 648; 672; 673; 685; 691; 709; 803; 806; 817; 871; 875];
  [89; 90; 140; 141; 150; 175; 195; 210; 212; 213; 216; 217; 243; 246; 249; 250; 253; 265; 281; 301; 311; 312; 341; 353; 354; 359; 360; 364; 412; 445; 453; 460; 461; 476; 481; 484; 499; 500; 525; 557; 565; 572; 598; 648; 672; 673; 685; 691; 709; 803; 806; 817; 871; 875];
  [89; 90; 140; 141; 150; 175; 195; 210; 212; 213; 216; 217; 243; 246; 249; 250; 253; 265; 281; 301; 311; 312; 341; 353; 354; 359; 360; 364; 412; 445; 453; 460; 461; 476; 481; 484; 499; 500; 525; 557; 565; 572; 598; 648; 672; 673; 685; 691; 709; 803; 806; 817; 871; 875];
  [89]; [89; 90];
  [89; 90; 140; 141; 150; 175; 195; 210; 212; 213; 216; 217; 243; 246; 249; 250; 253; 265; 281; 301; 311; 312; 341; 353; 354; 359; 360; 364; 412; 445; 453; 460; 461; 476; 481; 484; 499; 500; 525; 557; 565; 572; 598; 648; 672; 673; 685; 691; 709; 803; 806; 817; 871; 875];
  [89; 90; 150; 175; 195; 210; 212; 216; 217; 249; 250; 253; 265; 281; 301; 341; 353; 354; 359; 360; 445; 453; 460; 500; 557; 598; 672; 673; 817; 871; 875];
  [89; 90; 150; 175; 195; 210; 212; 213; 216; 217; 249; 250; 253; 256; 265; 281; 301; 307; 311; 312; 341; 353; 354; 359; 360; 378; 388; 392; 412; 421; 445; 453; 460; 461; 465; 481; 484; 500; 522; 526; 527; 528; 529; 530; 557; 572; 598; 621; 635; 648; 672; 673; 674; 685; 691; 709; 742; 803; 806; 817; 871; 875];
  [89; 90; 140; 141; 150; 175; 195; 210; 212; 213; 216; 217; 243; 246; 249; 250; 253; 265; 281; 301; 311; 312; 341; 353; 354; 359; 360; 364; 412; 445; 453; 460; 461; 476; 481; 484; 499; 500; 525; 557; 565; 572; 598; 648; 672; 673; 685; 691; 709; 803; 806; 817; 871; 875];
  [89; 90; 140; 141; 150; 175; 195; 210; 212; 213; 216; 217; 243; 246; 249; 250; 253; 265; 281; 301; 311; 312; 341; 353; 354; 359; 360; 364; 412; 445; 453; 460; 461; 476; 481; 484; 499; 500; 525; 557; 565; 572; 598; 648; 650; 672; 673; 674; 685; 691; 709; 803; 806; 817; 871; 875];
  [89]; [89; 565];
  [89; 90; 140; 141; 150; 175; 195; 210; 212; 213; 216; 217; 243; 249; 250; 253; 265; 281; 301; 311; 312; 341; 353; 354; 359; 360; 364; 412; 445; 453; 460; 461; 481; 484; 499; 500; 557; 565; 572; 598; 648; 672; 673; 685; 817; 871; 875];
  [89];
  [89; 90; 140; 141; 150; 175; 195; 210; 212; 213; 216; 217; 243; 246; 249; 250; 253; 265; 281; 301; 311; 312; 341; 353; 354; 359; 360; 364; 412; 445; 453; 460; 461; 476; 481; 484; 499; 500; 525; 557; 565; 572; 598; 648; 672; 673; 685; 691; 709; 803; 806; 817; 871; 875];
  [89; 90; 140; 141; 150; 175; 195; 210; 212; 213; 216; 217; 243; 246; 249; 250; 253; 265; 281; 301; 311; 312; 341; 353; 354; 359; 360; 364; 412; 445; 453; 460; 461; 476; 481; 484; 499; 500; 525; 557; 565; 572; 598; 648; 672; 673; 685; 691; 709; 803; 806; 817; 871; 875];
  [89; 90; 140; 141; 150; 175; 195; 210; 212; 213; 216; 217; 243; 246; 249; 250; 253; 265; 281; 301; 311; 312; 341; 353; 354; 359; 360; 364; 412; 445; 453; 460; 461; 476; 481; 484; 499; 500; 525; 557; 565; 572; 598; 648; 672; 673; 685; 691; 709; 803; 806; 817; 871; 875];
  [89; 90; 140; 141; 150; 175; 195; 210; 212; 213; 216; 217; 243; 246; 249; 250; 253; 265; 281; 301; 311; 312; 341; 353; 354; 359; 360; 364; 412; 445; 453; 460; 461; 476; 481; 484; 499; 500; 525; 557; 565; 572; 598; 648; 672; 673; 685; 691; 709; 803; 806; 817; 871; 875];
  [89; 90; 140; 141; 150; 175; 195; 210; 212; 213; 216; 217; 243; 246; 249; 250; 253; 265; 281; 301; 311; 312; 341; 353; 354; 359; 360; 364; 412; 445; 453; 460; 461; 476; 481; 484; 499; 500; 525; 557; 565; 572; 598; 648; 672; 673; 685; 691; 709; 803; 806; 817; 871; 875];
  [89; 90; 140; 141; 150; 175; 195; 210; 212; 213; 216; 217; 243; 246; 249; 250; 253; 265; 281; 301; 311; 312; 341; 353; 354; 359; 360; 364; 412; 445; 453; 460; 461; 476; 481; 484; 499; 500; 525; 557; 565; 572; 598; 648; 672; 673; 685; 691; 709; 803; 806; 817; 871; 875];
  [89; 90; 140; 141; 150; 175; 195; 210; 212; 213; 216; 217; 243; 246; 249; 250; 253; 265; 281; 301; 311; 312; 341; 353; 354; 359; 360; 364; 412; 445; 453; 460; 461; 476; 481; 484; 499; 500; 525; 557; 565; 572; 598; 648; 672; 673; 685; 691; 709; 803; 806; 817; 871; 875];
  [89];
  [89; 90; 140; 141; 150; 175; 195; 210; 212; 213; 216; 217; 243; 246; 249; 250; 253; 265; 281; 301; 311; 312; 341; 353; 354; 359; 360; 364; 412; 445; 453; 460; 461; 476; 481; 484; 499; 500; 525; 557; 565; 572; 598; 648; 672; 673; 685; 691; 709; 803; 806; 817; 871; 875];
  [89; 90; 140; 141; 150; 175; 195; 210; 212; 213; 216; 217; 243; 246; 249; 250; 253; 265; 281; 301; 311; 312; 341; 353; 354; 359; 360; 364; 412; 445; 453; 460; 461; 476; 481; 484; 499; 500; 525; 557; 565; 572; 598; 648; 672; 673; 685; 691; 709; 803; 806; 817; 871; 875];
  [89; 90; 140; 141; 150; 175; 195; 210; 212; 213; 216; 217; 243; 246; 249; 250; 253; 265; 281; 301; 311; 312; 341; 353; 354; 359; 360; 364; 412; 445; 453; 460; 461; 476; 481; 484; 499; 500; 525; 557; 565; 572; 598; 648; 672; 673; 685; 691; 709; 803; 806; 817; 871; 875];
  [89; 90; 140; 141; 150; 175; 195; 210; 212; 213; 216; 217; 243; 246; 249; 250; 253; 265; 281; 301; 311; 312; 341; 353; 354; 359; 360; 364; 412; 445; 453; 460; 461; 476; 481; 484; 499; 500; 525; 557; 565; 572; 598; 648; 672; 673; 685; 691; 709; 803; 806; 817; 871; 875];
  [89; 90; 140; 141; 150; 175; 195; 210; 212; 213; 216; 217; 243; 246; 249; 250; 253; 265; 281; 301; 311; 312; 341; 353; 354; 359; 360; 364; 412; 445; 453; 460; 461; 476; 481; 484; 499; 500; 525; 557; 565; 572; 598; 648; 672; 673; 685; 691; 709; 803; 806; 817; 871; 875];
  [89; 90; 140; 141; 150; 175; 195; 210; 212; 213; 216; 217; 243; 246; 249; 250; 253; 265; 281; 301; 311; 312; 341; 353; 354; 359; 360; 364; 412; 445; 453; 460; 461; 476; 481; 484; 499; 500; 525; 557; 565; 572; 598; 648; 672; 673; 685; 691; 709; 803; 806; 817; 871; 875];
  [89; 90; 140; 141; 150; 175; 195; 210; 212; 213; 216; 217; 243; 246; 249; 250; 253; 265; 281; 301; 311; 312; 341; 353; 354; 359; 360; 364; 412; 445; 453; 460; 461; 476; 481; 484; 499; 500; 525; 557; 565; 572; 598; 648; 672; 673; 685; 691; 709; 803; 806; 817; 871; 875];
  [89; 90; 140; 141; 150; 175; 195; 210; 212; 213; 216; 217; 243; 246; 249; 250; 253; 265; 281; 301; 311; 312; 341; 353; 354; 359; 360; 364; 412; 445; 453; 460; 461; 476; 481; 484; 499; 500; 525; 557; 565; 572; 598; 648; 672; 673; 685; 691; 709; 803; 806; 817; 871; 875];
  [89; 90; 140; 141; 150; 175; 195; 210; 212; 213; 216; 217; 243; 246; 249; 250; 253; 265; 281; 301; 311; 312; 341; 353; 354; 359; 360; 364; 412; 445; 453; 460; 461; 476; 481; 484; 499; 500; 525; 557; 565; 572; 598; 648; 672; 673; 685; 691; 709; 803; 806; 817; 871; 875];
  [89; 90; 140; 141; 150; 175; 195; 210; 212; 213; 216; 217; 243; 246; 249; 250; 253; 265; 281; 301; 311; 312; 341; 353; 354; 359; 360; 364; 412; 445; 453; 460; 461; 476; 481; 484; 499; 500; 525; 557; 565; 572; 598; 648; 672; 673; 685; 691; 709; 803; 806; 817; 871; 875];
  [89; 90; 140; 141; 150; 175; 195; 210; 212; 213; 216; 217; 243; 246; 249; 250; 253; 265; 281; 301; 311; 312; 341; 353; 354; 359; 360; 364; 412; 445; 453; 460; 461; 476; 481; 484; 499; 500; 525; 557; 565; 572; 598; 648; 672; 673; 685; 691; 709; 803; 806; 817; 871; 875];
  [89; 90; 140; 141; 150; 175; 195; 210; 212; 213; 216; 217; 243; 246; 249; 250; 253; 265; 281; 301; 311; 312; 341; 353; 354; 359; 360; 364; 412; 445; 453; 460; 461; 476; 481; 484; 499; 500; 525; 557; 565; 572; 598; 648; 672; 673; 685; 691; 709; 803; 806; 817; 871; 875];
  [89; 90; 140; 141; 150; 175; 195; 210; 212; 213; 216; 217; 243; 246; 249; 250; 253; 265; 281; 301; 311; 312; 341; 353; 354; 359; 360; 364; 412; 445; 453; 460; 461; 476; 481; 484; 499; 500; 525; 557; 565; 572; 598; 648; 672; 673; 685; 691; 709; 803; 806; 817; 871; 875];
  [89; 90; 140; 141; 150; 175; 195; 210; 212; 213; 216; 217; 243; 246; 249; 250; 253; 265; 281; 301; 311; 312; 341; 353; 354; 359; 360; 364; 412; 445; 453; 460; 461; 476; 481; 484; 499; 500; 525; 557; 565; 572; 598; 648; 672; 673; 685; 691; 709; 803; 806; 817; 871; 875];
  [89; 90; 140; 141; 150; 175; 195; 210; 212; 213; 216; 217; 243; 246; 249; 250; 253; 265; 281; 301; 311; 312; 341; 353; 354; 359; 360; 364; 412; 445; 453; 460; 461; 476; 481; 484; 499; 500; 525; 557; 565; 572; 598; 648; 672; 673; 685; 691; 709; 803; 806; 817; 871; 875];
  [89; 90; 140; 141; 150; 175; 195; 210; 212; 213; 216; 217; 243; 246; 249; 250; 253; 265; 281; 301; 311; 312; 341; 353; 354; 359; 360; 364; 412; 445; 453; 460; 461; 476; 481; 484; 499; 500; 525; 557; 565; 572; 598; 648; 672; 673; 685; 691; 709; 803; 806; 817; 871; 875];
  [89; 90; 140; 141; 150; 175; 195; 210; 212; 213; 216; 217; 243; 246; 249; 250; 253; 265; 281; 301; 311; 312; 341; 353; 354; 359; 360; 364; 412; 445; 453; 460; 461; 476; 481; 484; 499; 500; 525; 557; 565; 572; 598; 648; 672; 673; 685; 691; 709; 803; 806; 817; 871; 875];
  [89; 90; 140; 141; 150; 175; 195; 210; 212; 213; 216; 217; 243; 246; 249; 250; 253; 265; 281; 301; 311; 312; 341; 353; 354; 359; 360; 364; 412; 445; 453; 460; 461; 476; 481; 484; 499; 500; 525; 557; 565; 572; 598; 648; 672; 673; 685; 691; 709; 803; 806; 817; 871; 875];
  [89; 90; 140; 141; 150; 175; 195; 210; 212; 213; 216; 217; 243; 246; 249; 250; 253; 265; 281; 301; 311; 312; 341; 353; 354; 359; 360; 364; 412; 445; 453; 460; 461; 476; 481; 484; 499; 500; 525; 557; 565; 572; 598; 648; 672; 673; 685; 691; 709; 803; 806; 817; 871; 875];
  [89; 90; 140; 141; 150; 175; 195; 210; 212; 213; 216; 217; 243; 246; 249; 250; 253; 265; 281; 301; 311; 312; 341; 353; 354; 359; 360; 364; 412; 445; 453; 460; 461; 476; 481; 484; 499; 500; 525; 557; 565; 572; 598; 648; 672; 673; 685; 691; 709; 803; 806; 817; 871; 875];
  [89; 90; 140; 141; 150; 175; 195; 210; 212; 213; 216; 217; 243; 246; 249; 250; 253; 265; 281; 301; 311; 312; 341; 353; 354; 359; 360; 364; 412; 445; 453; 460; 461; 476; 481; 484; 499; 500; 525; 557; 565; 572; 598; 648; 672; 673; 685; 691; 709; 803; 806; 817; 871; 875];
  [89; 90; 140; 141; 150; 175; 195; 210; 212; 213; 216; 217; 243; 246; 249; 250; 253; 265; 281; 301; 311; 312; 341; 353; 354; 359; 360; 364; 412; 445; 453; 460; 461; 476; 481; 484; 499; 500; 525; 557; 565; 572; 598; 648; 672; 673; 685; 691; 709; 803; 806; 817; 871; 875];
  [89; 90; 140; 141; 150; 175; 195; 210; 212; 213; 216; 217; 243; 246; 249; 250; 253; 265; 281; 301; 311; 312; 341; 353; 354; 359; 360; 364; 412; 445; 453; 460; 461; 476; 481; 484; 499; 500; 525; 557; 565; 572; 598; 648; 672; 673; 685; 691; 709; 803; 806; 817; 871; 875];
  [89; 90; 140; 141; 150; 175; 195; 210; 212; 213; 216; 217; 243; 246; 249; 250; 253; 265; 281; 301; 311; 312; 341; 353; 354; 359; 360; 364; 412; 445; 453; 460; 461; 476; 481; 484; 499; 500; 525; 557; 565; 572; 598; 648; 672; 673; 685; 691; 709; 803; 806; 817; 871; 875];
  [89; 90; 140; 141; 150; 175; 195; 210; 212; 213; 216; 217; 243; 246; 249; 250; 253; 265; 281; 301; 311; 312; 341; 353; 354; 359; 360; 364; 412; 445; 453; 460; 461; 476; 481; 484; 499; 500; 525; 557; 565; 572; 598; 648; 672; 673; 685; 691; 709; 803; 806; 817; 871; 875];
  [89; 90; 140; 141; 150; 175; 195; 210; 212; 213; 216; 217; 243; 246; 249; 250; 253; 265; 281; 301; 311; 312; 341; 353; 354; 359; 360; 364; 412; 445; 453; 460; 461; 476; 481; 484; 499; 500; 525; 557; 565; 572; 598; 648; 672; 673; 685; 691; 709; 803; 806; 817; 871; 875];
  [89; 90; 140; 141; 150; 175; 195; 210; 212; 213; 216; 217; 243; 246; 249; 250; 253; 265; 281; 301; 311; 312; 341; 353; 354; 359; 360; 364; 412; 445; 453; 460; 461; 476; 481; 484; 499; 500; 525; 557; 565; 572; 598; 648; 672; 673; 685; 691; 709; 803; 806; 817; 871; 875];
  [89; 90; 140; 141; 150; 175; 195; 210; 212; 213; 216; 217; 243; 246; 249; 250; 253; 265; 281; 301; 311; 312; 341; 353; 354; 359; 360; 364; 412; 445; 453; 460; 461; 476; 481; 484; 499; 500; 525; 557; 565; 572; 598; 648; 672; 673; 685; 691; 709; 803; 806; 817; 871; 875];
  [89; 90; 140; 141; 150; 175; 195; 210; 212; 213; 216; 217; 243; 246; 249; 250; 253; 265; 281; 301; 311; 312; 341; 353; 354; 359; 360; 364; 412; 445; 453; 460; 461; 476; 481; 484; 499; 500; 525; 557; 565; 572; 598; 648; 672; 673; 685; 691; 709; 803; 806; 817; 871; 875];
  [89; 90; 140; 141; 150; 175; 195; 210; 212; 213; 216; 217; 243; 246; 249; 250; 253; 265; 281; 301; 311; 312; 341; 353; 354; 359; 360; 364; 412; 445; 453; 460; 461; 476; 481; 484; 499; 500; 525; 557; 565; 572; 598; 648; 672; 673; 685; 691; 709; 803; 806; 817; 871; 875];
  [89; 90; 140; 141; 150; 175; 195; 210; 212; 213; 216; 217; 243; 246; 249; 250; 253; 265; 281; 301; 311; 312; 341; 353; 354; 359; 360; 364; 412; 445; 453; 460; 461; 476; 481; 484; 499; 500; 525; 557; 565; 572; 598; 648; 672; 673; 685; 691; 709; 803; 806; 817; 871; 875];
  [89; 90; 140; 141; 150; 175; 195; 210; 212; 213; 216; 217; 243; 246; 249; 250; 253; 265; 281; 301; 311; 312; 341; 353; 354; 359; 360; 364; 412; 445; 453; 460; 461; 476; 481; 484; 499; 500; 525; 557; 565; 572; 598; 648; 672; 673; 685; 691; 709; 803; 806; 817; 871; 875];
  [89; 90; 140; 141; 150; 175; 195; 210; 212; 213; 216; 217; 243; 246; 249; 250; 253; 265; 281; 301; 311; 312; 341; 353; 354; 359; 360; 364; 412; 445; 453; 460; 461; 476; 481; 484; 499; 500; 525; 557; 565; 572; 598; 648; 672; 673; 685; 691; 709; 803; 806; 817; 871; 875];
  [89; 565];
  [89; 90; 140; 141; 150; 175; 195; 213; 243; 246; 249; 250; 253; 265; 281; 301; 311; 312; 341; 364; 412; 445; 453; 461; 476; 481; 484; 499; 500; 525; 565; 572; 598; 648; 685; 691; 709; 803; 806];
  [89]; [90]; [90];
  [90; 140; 150; 175; 195; 210; 212; 213; 216; 217; 243; 246; 249; 250; 253; 265; 281; 301; 311; 312; 341; 353; 354; 359; 360; 412; 445; 453; 460; 461; 476; 481; 484; 499; 500; 525; 557; 572; 598; 648; 672; 673; 685; 691; 709; 803; 806; 817; 871; 875];
  [90; 150; 175; 195; 210; 212; 216; 217; 249; 250; 253; 265; 281; 301; 341; 353; 354; 359; 360; 453; 460; 500; 557; 598; 650; 672; 673; 817; 871; 875];
  [95]; [95]; [101; 732]; [104; 736]; [105; 737]; [109; 748]; [110; 752]; [116; 765]; [117; 389; 767]; [120; 773]; [122; 774]; [128; 786];
  [128; 129; 213; 311; 312; 412; 461; 481; 484; 572; 648; 685; 786; 787]; [128; 786];
  [128; 129; 158; 196; 211; 227; 237; 244; 251; 255; 279; 286; 304; 323; 355; 377; 401; 414; 415; 418; 444; 464; 469; 486; 490; 492; 495; 497; 548; 556; 591; 593; 633; 639; 664; 786; 787; 809];
  [128; 786]; [128; 786]; [129; 787]; [129; 787]; [129; 787]; [129; 787]; [140; 243]; [140; 141; 243; 364; 499; 565]; [140; 243];
  [140; 141; 206; 243; 246; 364; 476; 499; 501; 525; 565]; [140; 141; 243; 246; 364; 476; 499; 525; 565]; [140]; [140; 243]; [140];
  [140; 141; 243; 364; 499]; [140; 141; 206; 243; 246; 364; 476; 499; 501; 525; 565];
  [141; 213; 258; 311; 312; 364; 412; 432; 434; 445; 461; 481; 484; 572; 648; 685]; [141; 364]; [141]; [141]; [141; 364]; [141; 364]; [141; 364];
  [141; 364]; [141; 364]; [142]; [142]; [144; 224]; [147]; [150]; [150]; [151]; [154]; [158];
  [158; 196; 227; 237; 244; 251; 255; 279; 286; 323; 355; 377; 401; 414; 415; 418; 444; 464; 486; 490; 492; 495; 497; 548; 556; 591; 593; 633; 664; 809];
  [175]; [175]; [175]; [192; 197; 238]; [193; 281]; [194]; [195]; [196]; [198]; [200]; [200]; [201]; [203; 620]; [203]; [203]; [203];
  [203; 443; 620; 705]; [205]; [205; 448; 671; 816]; [205]; [205]; [205; 671]; [205; 448; 671; 816]; [206; 501]; [206]; [206; 501]; [206; 501];
  [207]; [207]; [207; 452]; [210]; [210]; [210; 212; 216; 217; 353; 354; 359; 360; 460; 557; 672; 673; 817; 871; 875]; [211];
  [212; 217; 460; 557; 672; 673; 817; 871; 875]; [212; 217]; [212]; [212; 217; 460; 557; 672; 673; 817; 871; 875];
  [212; 217; 460; 557; 672; 673; 817; 871; 875]; [212]; [212; 217]; [212; 217; 557; 673; 871];
  [213; 246; 256; 307; 311; 312; 378; 388; 392; 412; 421; 445; 449; 455; 457; 461; 465; 476; 481; 484; 487; 522; 525; 526; 527; 528; 529; 530; 572; 585; 621; 635; 648; 674; 685; 691; 700; 709; 742; 803; 806];
  [213; 246; 256; 307; 311; 312; 378; 388; 392; 412; 421; 445; 449; 455; 457; 461; 465; 476; 481; 484; 487; 522; 525; 526; 527; 528; 529; 530; 572; 585; 621; 635; 648; 674; 685; 691; 700; 709; 742; 803; 806];
  [213; 311; 312; 412; 455; 457; 461; 481; 484; 487; 572; 585; 648; 685; 700];
  [213; 311; 312; 412; 455; 457; 461; 481; 484; 487; 572; 585; 648; 685; 700];
  [213; 311; 312; 412; 455; 457; 461; 481; 484; 487; 572; 585; 648; 685; 700];
  [213; 311; 312; 412; 455; 457; 461; 481; 484; 487; 572; 585; 648; 685; 700];
  [213; 246; 256; 307; 311; 312; 378; 388; 392; 412; 421; 455; 457; 461; 465; 476; 481; 484; 487; 522; 525; 526; 527; 528; 529; 530; 572; 585; 621; 635; 648; 674; 685; 691; 700; 709; 742; 803; 806];
  [213; 311; 312; 412; 572; 648; 685]; [213; 311; 312; 412; 461; 481; 484; 572; 648; 685]; [213]; [213]; [213];
  [213; 246; 256; 307; 311; 312; 378; 388; 392; 412; 421; 455; 457; 461; 465; 476; 481; 484; 487; 522; 525; 526; 527; 528; 529; 530; 572; 585; 621; 635; 648; 674; 685; 700; 742; 803];
  [213; 311; 312; 412; 461; 481; 484; 572; 648; 685]; [213; 311; 312; 412; 461; 481; 484; 572; 648; 685];
  [213; 311; 312; 412; 461; 481; 484; 572; 648; 685]; [213; 311; 312; 412; 461; 481; 484; 572; 648; 685];
  [213; 311; 312; 412; 461; 481; 484; 572; 648; 685];
  [213; 246; 256; 307; 311; 312; 378; 388; 392; 412; 421; 455; 457; 461; 465; 476; 481; 484; 487; 522; 525; 526; 527; 528; 529; 530; 572; 585; 621; 635; 648; 674; 685; 700; 742; 803];
  [213; 311; 312; 412; 461; 481; 484; 572; 648; 685]; [213; 242]; [213; 311; 312; 412; 461; 481; 484; 572; 648; 685];
  [213; 311; 312; 412; 461; 481; 484; 572; 648; 685]; [213];
  [213; 246; 256; 258; 307; 311; 312; 370; 378; 388; 392; 412; 421; 432; 434; 445; 449; 455; 457; 461; 465; 476; 481; 484; 487; 522; 525; 526; 527; 528; 529; 530; 541; 544; 572; 585; 621; 635; 648; 674; 685; 691; 700; 709; 742; 803; 806];
  [213]; [213]; [213]; [213]; [213; 311; 312; 412; 455; 457; 461; 481; 484; 487; 572; 585; 648; 685; 700];
  [213; 246; 256; 258; 307; 311; 312; 370; 378; 388; 392; 412; 421; 432; 434; 445; 449; 455; 457; 461; 465; 476; 481; 484; 487; 522; 525; 526; 527; 528; 529; 530; 541; 544; 572; 585; 621; 635; 648; 674; 685; 691; 700; 709; 742; 803; 806];
  [213; 246; 256; 258; 307; 311; 312; 370; 378; 388; 392; 412; 421; 432; 434; 445; 449; 455; 457; 461; 465; 476; 481; 484; 487; 522; 525; 526; 527; 528; 529; 530; 541; 544; 572; 585; 621; 635; 648; 674; 685; 691; 700; 709; 742; 803; 806];
  [213; 311; 312; 412; 461; 481; 484; 572; 648; 685]; [213; 311; 312; 412; 455; 457; 461; 481; 484; 487; 572; 585; 648; 685; 700];
  [213; 311; 312; 412; 455; 457; 461; 481; 484; 487; 572; 585; 648; 685; 700];
  [213; 311; 312; 412; 455; 457; 461; 481; 484; 487; 572; 585; 648; 685; 700]; [213]; [213]; [213]; [213; 312; 412];
  [213; 311; 312; 412; 572; 648; 685]; [213; 311; 312; 412; 572; 648; 685]; [213; 311; 312; 412; 572; 648; 685];
  [213; 311; 312; 412; 481; 572; 648; 685]; [213; 311; 312; 412; 481; 572; 648; 685]; [213; 311; 312; 412; 481; 484; 572; 648; 685];
  [213; 311; 312; 412; 481; 484; 572; 648; 685]; [213; 311; 312; 412; 461; 481; 484; 572; 648; 685];
  [213; 311; 312; 412; 461; 481; 484; 572; 648; 685]; [213; 311; 312; 412; 461; 481; 484; 572; 648; 685];
  [213; 311; 312; 412; 461; 481; 484; 572; 648; 685]; [213; 311; 312; 412; 461; 481; 484; 572; 648; 685];
  [213; 311; 312; 412; 461; 481; 484; 572; 648; 685]; [213; 311; 312; 412; 461; 481; 484; 572; 648; 685];
  [213; 311; 312; 412; 461; 481; 484; 572; 648; 685]; [213; 311; 312; 412; 461; 481; 484; 572; 648; 685];
  [213; 311; 312; 412; 461; 481; 484; 572; 648; 685]; [213; 311; 312; 412; 461; 481; 484; 572; 648; 685];
  [213; 311; 312; 412; 461; 481; 484; 572; 648; 685]; [213; 311; 312; 412; 461; 481; 484; 572; 648; 685];
  [213; 258; 311; 312; 370; 412; 432; 434; 445; 449; 455; 457; 461; 481; 484; 487; 541; 544; 572; 585; 648; 685; 700];
  [213; 311; 312; 412; 445; 461; 481; 484; 572; 648; 674; 685; 691; 709; 803; 806]; [214]; [215]; [216]; [216]; [217]; [217]; [218]; [219]; [220];
  [228]; [232]; [232]; [234]; [239]; [240]; [240]; [240]; [240]; [241; 245; 252; 500; 518; 535; 862]; [241; 245; 252; 500; 518; 535; 862];
  [241; 245; 252; 535]; [241]; [242]; [243]; [243]; [244]; [245];
  [246; 256; 307; 378; 388; 392; 421; 465; 476; 522; 525; 526; 527; 528; 529; 530; 621; 635; 674; 691; 709; 742; 803; 806];
  [246; 256; 307; 378; 388; 392; 421; 465; 476; 522; 525; 526; 527; 528; 529; 530; 621; 635; 674; 691; 709; 742; 803; 806];
  [246; 256; 307; 378; 388; 392; 421; 465; 476; 522; 525; 526; 527; 528; 529; 530; 621; 635; 674; 691; 709; 742; 803; 806];
  [246; 256; 307; 378; 388; 392; 421; 465; 476; 522; 525; 526; 527; 528; 529; 530; 621; 635; 674; 691; 709; 742; 803; 806];
  [246; 256; 307; 378; 388; 392; 421; 465; 476; 522; 525; 526; 527; 528; 529; 530; 621; 635; 674; 742; 803; 806];
  [246; 256; 307; 378; 388; 392; 421; 465; 476; 522; 525; 526; 527; 528; 529; 530; 621; 635; 674; 742; 803; 806]; [246; 476; 525; 803];
  [246; 256; 307; 378; 388; 392; 421; 465; 476; 522; 525; 526; 527; 528; 529; 530; 621; 635; 674; 742; 803];
  [246; 256; 307; 378; 388; 392; 421; 465; 476; 522; 525; 526; 527; 528; 529; 530; 621; 635; 674; 742; 803]; [246; 476; 525; 803];
  [246; 256; 307; 378; 388; 392; 421; 465; 476; 522; 525; 526; 527; 528; 529; 530; 621; 635; 674; 742; 803];
  [246; 256; 307; 378; 388; 392; 421; 465; 476; 522; 525; 526; 527; 528; 529; 530; 621; 635; 674; 742; 803];
  [246; 256; 307; 378; 388; 392; 421; 465; 476; 522; 525; 526; 527; 528; 529; 530; 621; 635; 691; 709; 742; 803; 806];
  [246; 256; 307; 378; 388; 392; 421; 465; 476; 522; 525; 526; 527; 528; 529; 530; 621; 635; 674; 691; 709; 742; 803; 806]; [246; 476; 525];
  [246; 476; 525; 691; 709; 803; 806]; [246; 476; 525]; [246; 476; 525; 691; 709; 803; 806];
  [246; 256; 307; 378; 388; 392; 421; 465; 476; 522; 525; 526; 527; 528; 529; 530; 621; 635; 674; 691; 709; 742; 803; 806]; [246]; [246; 476; 525];
  [246; 476; 525]; [246; 476; 525]; [246; 476; 525];
  [246; 256; 307; 378; 388; 392; 421; 465; 476; 522; 525; 526; 527; 528; 529; 530; 621; 635; 674; 691; 709; 742; 803; 806];
  [246; 256; 307; 378; 388; 392; 421; 465; 476; 522; 525; 526; 527; 528; 529; 530; 621; 635; 674; 691; 709; 742; 803; 806];
  [246; 256; 307; 378; 388; 392; 421; 465; 476; 522; 525; 526; 527; 528; 529; 530; 621; 635; 674; 691; 709; 742; 803; 806];
  [246; 256; 307; 378; 388; 392; 421; 465; 476; 522; 525; 526; 527; 528; 529; 530; 621; 635; 674; 691; 709; 742; 803; 806];
  [246; 256; 307; 378; 388; 392; 421; 465; 476; 522; 525; 526; 527; 528; 529; 530; 621; 635; 674; 691; 709; 742; 803; 806];
  [246; 256; 307; 378; 388; 392; 421; 465; 476; 522; 525; 526; 527; 528; 529; 530; 621; 635; 674; 691; 709; 742; 803; 806];
  [246; 256; 307; 378; 388; 392; 421; 465; 476; 522; 525; 526; 527; 528; 529; 530; 621; 635; 674; 691; 709; 742; 803; 806]; [246; 476; 525];
  [247; 697]; [247]; [249]; [250]; [252; 535]; [252]; [253]; [254; 257; 362; 489; 532; 676]; [254; 676]; [255];
  [256; 307; 378; 388; 392; 421; 465; 522; 526; 527; 528; 529; 530; 621; 635; 674; 742];
  [256; 307; 378; 388; 392; 421; 465; 522; 526; 527; 528; 529; 530; 621; 635; 674; 742];
  [256; 307; 378; 388; 392; 421; 465; 522; 526; 527; 528; 529; 530; 621; 635; 674; 742; 803];
  [256; 307; 378; 388; 392; 421; 465; 522; 526; 527; 528; 529; 530; 621; 635; 674; 742];
  [256; 307; 378; 388; 392; 421; 465; 522; 526; 527; 528; 529; 530; 621; 635; 674; 742];
  [256; 307; 378; 388; 392; 421; 465; 522; 526; 527; 528; 529; 530; 621; 635; 674; 691; 709; 742; 803; 806]; [256];
  [256; 307; 378; 388; 392; 421; 465; 522; 526; 527; 528; 529; 530; 621; 635; 674; 742];
  [256; 258; 307; 370; 378; 388; 392; 421; 432; 434; 449; 455; 457; 465; 487; 522; 526; 527; 528; 529; 530; 541; 544; 585; 621; 635; 700; 742];
  [258; 432; 434; 541]; [258]; [258]; [258; 432; 434]; [258; 432; 434]; [258; 432; 434]; [258; 432; 434]; [258; 432; 434]; [260]; [260]; [260; 543];
  [262]; [264]; [265; 281]; [266; 284; 327; 551; 562]; [266]; [268]; [269]; [271; 278]; [275]; [276]; [276]; [283]; [284]; [286]; [286]; [287];
  [287]; [288]; [289]; [298; 336]; [298]; [300]; [301]; [302]; [304]; [307]; [308]; [310]; [310]; [311]; [311]; [311]; [312]; [314]; [315]; [327];
  [330]; [332]; [332]; [332]; [334]; [334]; [334]; [336]; [341]; [343]; [344]; [352]; [353]; [353]; [354]; [354]; [358]; [359]; [359]; [360]; [360];
  [361; 596]; [361; 596]; [361; 596]; [361]; [361]; [361; 596]; [361; 596]; [361; 596]; [361; 596]; [361; 596]; [361; 596]; [361; 596];
  [362; 450; 532]; [362; 450; 532; 676]; [364]; [365]; [370]; [370]; [370]; [374; 379; 416]; [378]; [388; 742]; [392]; [392; 709]; [395; 425]; [399];
  [400]; [403; 428; 467; 519; 520; 521; 534; 567; 604; 607; 608; 609; 610; 611; 670; 677; 711; 810; 818];
  [403; 428; 467; 519; 520; 521; 534; 567; 604; 607; 608; 609; 610; 611; 670; 677; 711; 810; 818];
  [403; 428; 467; 519; 520; 521; 534; 567; 604; 607; 608; 609; 610; 611; 670; 677; 711; 810; 818]; [404]; [405]; [410]; [411]; [412]; [421]; [429];
  [430]; [432; 434; 541]; [432]; [433]; [434]; [438]; [439]; [439]; [441]; [443]; [443; 705]; [445]; [445]; [445]; [445]; [448]; [448; 816]; [449];
  [449]; [452]; [453]; [454]; [455; 457; 487; 585; 700]; [455; 457; 487; 585; 700]; [455]; [457]; [460]; [460; 672; 817; 875]; [461]; [463]; [464];
  [465]; [469]; [469]; [470]; [470]; [471]; [472]; [473]; [474]; [475; 646]; [475]; [475]; [476]; [477]; [478]; [481]; [484]; [487; 585]; [487];
  [487; 585]; [487]; [487]; [489; 532; 536]; [499]; [499]; [500]; [500]; [501]; [502]; [502]; [505]; [505]; [505]; [505]; [517]; [518]; [522]; [522];
  [523]; [525]; [526]; [527]; [528]; [529]; [530]; [531]; [531]; [533]; [538]; [541]; [543]; [544]; [544]; [545]; [548]; [551]; [553]; [554]; [557];
  [557]; [562]; [565]; [565]; [565]; [565]; [565]; [565]; [565]; [566]; [570]; [570]; [570; 679; 681]; [570; 679; 681]; [572]; [574]; [576]; [576];
  [576; 687]; [577]; [577]; [579]; [581]; [585]; [590]; [590]; [590]; [591; 592; 593]; [591; 592; 593]; [591]; [592]; [593]; [594]; [594]; [594];
  [595]; [595]; [596]; [598]; [605]; [616]; [618]; [619]; [620]; [621]; [622]; [626]; [627]; [631]; [632]; [634]; [635]; [636]; [636]; [637]; [638];
  [639]; [639]; [639]; [641]; [642; 686]; [642]; [643; 721]; [646]; [648]; [650]; [650; 674]; [650]; [650; 674]; [650; 674]; [650; 674]; [655];
  [655]; [655]; [656; 657]; [656; 657]; [656]; [657]; [661]; [669]; [671]; [672]; [673]; [674]; [674]; [674]; [676]; [679]; [681]; [684]; [684];
  [684]; [684]; [685]; [686]; [687]; [688]; [691; 709]; [691; 709]; [691; 709; 806; 814; 856; 858; 862; 866]; [691; 709; 806];
  [691; 709; 806; 814; 856; 858; 862; 866]; [691; 709; 806; 814; 856; 858; 862; 866]; [691; 709; 806]; [691; 709; 806; 814; 856; 858; 862; 866];
  [691; 709; 806; 814; 856; 858; 862; 866]; [691; 709; 806]; [691; 709; 806]; [691; 709; 806]; [691; 709; 806]; [691; 709; 806]; [691; 709; 806];
  [691; 709; 806; 814; 856; 858; 862; 866]; [691; 709; 806; 814; 856; 858; 862; 866]; [691; 709; 806; 814; 856; 858; 862; 866];
  [691; 709; 806; 814; 856; 858; 862; 866]; [691; 709; 806]; [691; 709; 806]; [691; 709; 806]; [691; 709; 806; 814; 856; 858; 862; 866];
  [691; 709; 806; 814; 856; 858; 862; 866]; [691; 709; 806]; [691; 709; 806]; [691; 709; 806; 814; 856; 858; 862; 866];
  [691; 709; 806; 814; 856; 858; 862; 866]; [691; 709; 806; 814; 856; 858; 862; 866]; [691; 709; 806]; [691; 709; 806; 814; 856; 858; 862; 866];
  [691; 709; 806; 814; 856; 858; 862; 866]; [691; 709; 806; 814; 856; 858; 862; 866]; [691; 709; 806; 814; 856; 858; 862; 866]; [691; 709; 806];
  [691; 709; 806]; [691; 709; 806; 814; 856; 858; 862; 866]; [691; 709; 806; 814; 856; 858; 862; 866]; [691; 709; 806; 814; 856; 858; 862; 866];
  [691; 709; 806; 814; 856; 858; 862; 866]; [691; 709; 806; 814; 856; 858; 862; 866]; [691; 709; 806; 814; 856; 858; 862; 866]; [691; 709; 806];
  [691; 709; 806; 814; 856; 858; 862; 866]; [691; 709; 806]; [691; 709; 806; 814; 856; 858; 862; 866]; [691; 709; 806; 814; 856; 858; 862; 866];
  [691; 709; 806; 814; 856; 858; 862; 866]; [691; 709; 806; 814; 856; 858; 862; 866]; [691; 709; 806; 814; 856; 858; 862; 866]; [691; 709; 806];
  [691; 709; 806]; [691; 709; 806; 814; 856; 858; 862; 866]; [691; 709; 806]; [691; 709; 806]; [691; 709; 806; 814; 856; 858; 862; 866];
  [691; 709; 806; 814; 856; 858; 862; 866]; [691; 709; 806; 814; 856; 858; 862; 866]; [691; 709; 806; 814; 856; 858; 862; 866];
  [691; 709; 806; 814; 856; 858; 862; 866]; [691; 709; 806]; [691; 709; 806]; [691; 709; 806]; [691; 709; 806]; [691; 709; 806];
  [691; 709; 806; 814; 856; 858; 862; 866]; [691; 709; 806; 814; 856; 858; 862; 866]; [691; 709; 806; 814; 856; 858; 862; 866];
  [691; 709; 806; 814; 856; 858; 862; 866]; [691; 709; 806; 814; 856; 858; 862; 866]; [691; 709; 806]; [691; 709; 806]; [691; 709; 806];
  [691; 709; 806]; [691; 709; 806; 814; 856; 858; 862; 866]; [691; 709; 806; 814; 856; 858; 862; 866]; [691; 709; 806; 814; 856; 858; 862; 866];
  [691; 709; 806]; [691; 709; 806; 814; 856; 858; 862; 866]; [691; 709; 806]; [691; 709]; [691; 709; 806]; [691; 709]; [691; 709]; [691; 709];
  [691; 709; 806]; [691; 709; 803; 806]; [691; 803; 806]; [691; 709; 806; 814; 856; 858; 862; 866]; [697]; [700]; [704]; [704]; [706]; [708]; [709];
  [713]; [803]; [805]; [806]; [806]; [814; 856; 858; 862; 866]; [814; 856; 858; 862; 866]; [814; 856; 858; 862; 866]; [814; 856; 858; 862; 866];
  [814; 856; 858; 862; 866]; [814; 856; 858; 862; 866]; [814; 856; 858; 862; 866]; [814; 856; 858; 862; 866]; [814; 856; 858; 862; 866];
  [814; 856; 858; 862; 866]; [814; 856; 858; 862; 866]; [814; 856; 858; 862; 866]; [814; 856; 858; 862; 866]; [814; 856; 858; 862; 866];
  [814; 856; 858; 862; 866]; [814; 856; 858; 862; 866]; [814; 856; 858; 862; 866]; [814; 856; 858; 862; 866]; [814; 856; 858; 862; 866];
  [814; 856; 858; 862; 866]; [814; 856; 858; 862; 866]; [814; 856; 858; 862; 866]; [814; 856; 858; 862; 866]; [814; 856; 858; 862; 866];
  [814; 856; 858; 862; 866]; [814; 856; 858; 862; 866]; [814; 856; 858; 862; 866]; [814; 856; 858; 862; 866]; [814; 856; 858; 862; 866];
  [814; 856; 858; 862; 866]; [814; 856; 858; 862; 866]; [814; 856; 858; 862; 866]; [814; 856; 858; 866]; [814; 856; 858; 862; 866]; [814];
  [814; 856]; [814; 856; 858; 866]; [814; 856; 858; 866]; [814; 856; 858; 866]; [814; 856; 858; 866]; [817]; [821]; [856]; [858]; [858; 866]; [862];
  [862]; [864]; [865]; [866]; [871]; [874]
].
Definition cert_R : list Z := [
  -10; -10; -10; -10; -10; -10; -10; -10; -10; -10; -10; -10; -10; -10; -10; -10; -10; -10; -10; -10; -10; -10; -10; -10; -10; -10; -10; -10; -10;
  -10; -10; -10; -10; -10; -10; -10; -10; -10; -10; -10; -10; -10; -10; -10; -10; -10; -10; -10; -10; -10; -10; -10; -10; -10; -10; -10; -10; -10;
  -10; -10; -10; -10; -10; -10; -10; -10; -10; -10; -10; -10; -10; -10; -10; -10; -10; -10; -10; -10; -10; -10; -10; -10; -10; -10; -10; -10; -10;
  -10; -10; -10; -10; -10; -10; -10; -10; -10; -10; -10; -10; -10; -10; -10; -10; -10; -10; -10; -10; -10; -10; -10; -10; -10; -10; -10; -10; -10;
  -10; -10; -10; -10; -10; -10; -10; -10; -10; -10; -10; -10; -10; -10; -10; -10; -10; -10; -10; -10; -10; -10; -10; -10; -10; -10; -10; -10; -10;
  -10; -10; -10; -10; -10; -10; -10; -10; -49; -40; -41; -24; -8; -27; -9; -25; -7; -33; -5; -6; -9; -8; -7; -9; 1; 1; -13; 1; -16; -13; 1; -16; 1;
  -16; 1; 1; -5; -6; -24; -7; 1; -8; -9; -28; -8; -21; -52; -13; -22; -3; -4; -5; -8; -27; -43; -17; 2; -26; -48; -49; -55; -55; -50; -25; -6; -7;
  -4; -5; -8; -25; -27; -8; -8; -14; -38; 1; -16; -16; -17; 1; -8; -15; 1; -7; 1; -25; -60; -6; -7; -9; -37; 1; 1; 1; 1; 1; 1; 1; 1; -22; -23; -8;
  -6; -7; -8; -22; -23; -8; -8; -31; -31; -4; -5; -27; -27; -24; -30; -41; -6; -7; -14; -7; -6; -21; -21; -17; -5; -9; -9; -9; -35; -36; -9; -35; -6;
  -7; -8; -9; -19; -35; -36; -19; -9; -29; -3; -4; -5; -25; -29; -25; -40; -11; -12; -13; -24; -28; -29; -24; 1; -7; 1; -19; -24; -5; -6; -8; -7;
  -35; -9; -9; -36; -18; 1; -9; -9; -19; -9; -9; -9; -9; -9; -9; -9; -8; -9; -19; -19; -39; -14; 4; 3; 2; 1; 0; 1; -1; 0; -2; -2; -12; -9; -9; -3;
  -4; -7; -14; -9; -19; -5; -5; -6; -6; -23; -5; -23; -18; -13; 1; -4; -5; 3; 1; 1; -15; -19; 1; -7; -9; -9; -9; -9; -9; -9
].
Definition cert_Q : list Z := [
  0; -10; -40; -41; -7; -9; -50; -81; -17; -19; -8; -34; -69; -27; -16; -29; -29; -25; -26; -28; -56; -27; -28; -44; -70; -37; -26; -26; -26; -15;
  -35; -32; -38; -54; -62; -36; -36; -36; -25; -14; -47; -64; -64; -63; -72; -61; -35; -24; -57; -81; -71; -34; -80; -44; -33; -33; -54; -42; -42;
  -43; -50; -50; -51; -52; -52; -32; -43; -32; -64; -53; -59; -62; -42; -42; -65; -66; -49; -57; -75; -80; -81; -87; -87; -82; -54; -55; -56; -62;
  -73; -41; -41; -66; -72; -52; -88; -59; -77; -51; -51; -51; -51; -51; -51; -51; -51; -51; -51; -51; -51; -51; -51; -51; -51; -51; -51; -51; -51;
  -51; -51; -51; -51; -51; -51; -51; -51; -51; -51; -51; -51; -51; -51; -51; -51; -51; -51; -51; -51; -51; -51; -51; -51; -51; -51; -51; -50; -50;
  -69; -49; -68; -67; -66; -49; -66; -68; -49; -49; -72; -68; -47; -48; -50; -50; -76; -50; -60; -60; -50; -70; -66; -70; -66; -81; -65; -69; -70;
  -65; -60; -50; -50; -50; -60; -50; -50; -50; -50; -50; -50; -49; -50; -60; -60; -80; -50; -50; -50; -66; -47; -50; -50; -67; -68; -61; -61; -61;
  -61; -61; -61; -61; -61; -61; -61; -61; -61; -57; -65; -74; -61; -61; -65; -74; -61; -61; -59; -78; -60; -58; -84; -57; -60; -60; -61; -59; -57;
  -58; -55; -56; -59; -57; -60; -61; -50; -60; -59; -76; -72; -59; -59; -57; -61; -75; -75; -71; -60; -60; -60; -72; -57; -60; -78; -92; -71; -75;
  -72; -73; -74; -70; -71; -97; -67; -68; -69; -70; -71; -69; -70; -70; -96; -97; -70; -67; -75; -70; -75; -71; -71; -71; -67; -75; -64; -65; -66;
  -67; -67; -67; -67; -67; -67; -67; -67; -67; -67; -67; -67; -67; -67; -67; -67; -67; -67; -67; -67; -67; -67; -67; -74; -57; -71; -95; -73; -72;
  -65; -80; -76; -63; -66; -66; -66; -53; -54; -55; -56; -57; -56; -58; -57; -59; -59; -60; -61; -64; -71; -66; -76; -62; -63; -80; -62; -80; -75;
  -72; -76; -58; -66; -75; -84; -67; -75; -71; -64; -75; -84; -71; -70; -67; -67; -65; -71; -60; -60; -60; -49; -69; -69; -68; -68; -76; -83; -82;
  -82; -67; -67; -67; -67; -67; -67; -67; -69; -67; -67; -69; -67; -67; -67; -67; -69; -69; -67; -85; -65; -63; -64; -65; -66; -65; -78; -78; -66;
  -66; -93; -66; -66; -68; -67; -74; -81; -81; -68; -69; -66; -70; -69; -82; -67; -67; -67; -67; -83; -64; -63; -66; -58; -88; -86; -83; -84; -86;
  -85; -113; -87; -106; -107; -80; -82; -84; -76; -63; -70; -77; -78; -80; -80; -106; -106; -81; -70; -77; -77; -85; -85; -74; -75; -69; -79; -77;
  -73; -77; -81; -73; -77; -77; -77; -77; -65; -66; -65; -84; -67; -52; -66; -66; -66; -65; -67; -67; -66; -71; -72; -72; -73; -76; -81; -89; -90;
  -98; -74; -81; -89; -90; -98; -81; -81; -81; -76; -77; -78; -80; -84; -87; -84; -87; -87; -80; -79; -74; -73; -59; -57; -56; -77; -88; -73; -73;
  -72; -77; -73; -74; -73; -73; -73; -88; -88; -76; -78; -65; -88; -76; -68; -92; -91; -93; -89; -97; -116; -116; -90; -94; -98; -71; -69; -72; -70;
  -88; -86; -88; -89; -142; -87; -80; -82; -82; -84; -92; -85; -80; -72; -87; -83; -83; -91; -90; -87; -76; -87; -75; -76; -75; -94; -100; -101; -71;
  -62; -76; -66; -68; -82; -82; -79; -77; -78; -77; -89; -87; -90; -87; -89; -86; -86; -90; -90; -90; -79; -66; -86; -82; -78; -87; -78; -79; -79;
  -79; -94; -94; -86; -86; -75; -101; -104; -152; -100; -98; -104; -79; -87; -98; -99; -90; -84; -84; -97; -95; -95; -92; -86; -93; -96; -93; -97;
  -91; -92; -96; -86; -86; -104; -102; -103; -110; -110; -81; -86; -88; -99; -99; -88; -97; -97; -86; -89; -86; -99; -99; -88; -96; -85; -92; -96;
  -97; -114; -110; -108; -117; -85; -97; -94; -94; -102; -96; -106; -99; -107; -107; -101; -102; -110; -93; -95; -96; -114; -103; -112; -127; -85;
  -109; -108; -107; -120; -151; -121; -96; -96; -85; -96; -96; -88; -85; -106; -127; -104; -104; -98; -112; -110; -108; -116; -111; -106; -105; -105;
  -105; -94; -95; -113; -111; -121; -119; -119; -119; -119; -119; -119; -119; -119; -119; -119; -119; -119; -119; -119; -119; -119; -119; -119; -119;
  -119; -119; -119; -119; -119; -119; -119; -119; -119; -119; -119; -119; -119; -119; -119; -119; -119; -119; -119; -119; -119; -119; -119; -119;
  -119; -119; -119; -119; -119; -119; -119; -119; -119; -119; -119; -119; -119; -119; -119; -119; -119; -119; -119; -119; -119; -119; -119; -119;
  -119; -119; -119; -119; -119; -119; -119; -119; -119; -119; -119; -119; -119; -118; -117; -122; -112; -113; -114; -115; -115; -118; -113; -103;
  -116; -130; -114; -108; -118; -121; -123; -132; -122; -116; -125; -125; -125; -125; -125; -125; -125; -125; -125; -125; -125; -125; -125; -125;
  -125; -125; -125; -125; -125; -125; -125; -125; -125; -125; -125; -125; -125; -125; -125; -125; -125; -125; -126; -125; -121; -122; -140; -123;
  -115; -124; -118; -142; -131; -131; -127; -124; -123; -128; -152; -141; -132; -142
].
(** Sets of tokens, as bits; the items of each state: rule, position, number of the set. *)
Definition cert_sets : list N := [
  1%N; 713623846352979940529142984724747568191373313%N; 2251799813685248%N; 21267647932558653966463164764299198464%N;
  2146446746626220409931466850205569559249813504%N; 10889035741470030830827989689616396451840%N; 2658455991569832929281538633848848384%N;
  42535295865117307932921825928971026432%N; 1427247735241255746175593902371321065353773072%N; 1427247820311847476410209768214972923295825936%N;
  2658455991569831748113457129774383104%N; 1427247905382439206644825634058624781237878800%N; 2141396043083717219071988525602620103299432464%N;
  2140888107887205355397388435976754408000064240%N; 1404685610649633977176810379478339176890368%N; 2658455991569831745807614120560689152%N;
  170141183460469231731687303715884105728%N; 10889035741470030830827987437816582766592%N; 72057594037927936%N;
  2140871539058939821587433676540725574219333632%N; 5575186299632655785383929568162090376495104%N; 5749410871496176278677177367167155700760576%N;
  5749432139144108837331143828080120186273792%N; 2140871539058939821587428954174242704574119936%N; 2283218780478058670767794699758314368033357824%N;
  2146622206013128644264638549649133758448664576%N; 133984310427293751685840646760130559663407104%N; 5749410871496176278677195813911229410312192%N;
  5749453406792041395985128735737158381338624%N; 8537046556608369288677093519818203569586176%N; 174267107159385610601180720830994295291904%N;
  2146446725358572477372812883742404794950615040%N; 174224571863520493293266245749139033817088%N; 174245839511453051947232706662103519330304%N;
  2140871539058939821587428954246300298612047872%N; 713623870279083864657628696993274653237575680%N;
  2140871901900419300522494762476878020646797312%N; 5749432139144108837331162274824193895825408%N; 2140871883291227359533672541823579176721973248%N;
  87729047721804447611651265978502742016%N; 2140871880632771367963840796015965056161284096%N; 108996695654363101578112178942988255232%N;
  348558140422695349688073710189073636786176%N; 1361129467683753853853498429727072845824%N; 348449143727040986586495598010130648530944%N;
  21267647932558653966460912964485513216%N; 2140871880632771367963841977184046525876011008%N; 2146446746626220409931466850203317759436128256%N;
  2277992022054505123410343280880505370110328832%N; 2277643572910778082423756785282495239461797888%N;
  2277643487840186352189140919438843381519745024%N; 154742504910672534362390528%N; 2140871624129531551822044820089952156554100736%N;
  2140871645397179484380698786550865121039613952%N; 2141220094540906525367285282148875251688144896%N;
  2141219988202666862574015449844310429260578816%N; 2787593149816327892691964784081045188247552%N; 3310415738942417283149473407486992559636480%N;
  2787678220408058127307830627732903130300416%N; 174224571863520493293247799005065324265472%N; 3136042293543368879278460382091175836778496%N;
  85070591730234615865843651857942052864%N; 2140871539079709048635649521820533495252910096%N; 2277992043322153055968997247341418334595842048%N;
  45193751856687139678729440049531715584%N; 2277643594178426014982410751743408203947311104%N; 174352177751115845217046564482852237344768%N;
  2140873241762239051717694649514394783234129920%N; 133984352962589616957891084592629022996824064%N; 174352177751116464187066208298889593749504%N;
  174267107159386229571200364647031651696640%N; 174373445399049022841032669211854079262720%N; 522822589126090009427528267221984727793664%N;
  2277643572910778092482019604476209973554053120%N; 5614659054195484647145681022624175489024%N; 179839230917715977940393480027689499754496%N;
  5635926702128043301112141935588661002240%N; 44781329633171259119546657653854908840935424%N; 133984310427293751685840646471900183511695360%N;
  44601490402253543141606264173827219341180928%N; 89202980794122492566293988818045274670759936%N; 288230376151711744%N;
  133985682190585401719021483489016768979009536%N; 10633823966279326983230456482242756608%N; 133984321061117717965167629990587041906163712%N;
  1371763291650033180836728886209315602432%N; 2144181954808266833206618102554664321186529280%N; 2143833399315915535709692119393902475545149440%N;
  2143833484396891859661377640495741226052485120%N; 2787614417464260451345931244994009673760768%N; 1427249181441315160164063621713402650368671760%N;
  2140871539058939821587428954174242704574119952%N; 127605887595351923798765477786913079296%N; 148873535527910577765226390751398592512%N;
  348598017262568897164260824400882047123456%N; 2141220009470314795132669416305223393746092032%N; 174373445399048403871013025395816722857984%N;
  522822589126089390457508623405947371388928%N; 2274868175418736561631762773782496752989899504%N; 133985724725881266836329416410842697950035968%N;
  179881766213581095248326401853618470780928%N; 5699729645925719263011542688880627023872%N; 5614659054195484647145699037022684971008%N;
  5720997293858277916978003601845112537088%N; 354170141020899264503473601611975761068032%N; 133984352962589616803148579681956488634433536%N;
  2140877174985641949630730066388235887273050112%N; 44775757509412928752207444894658213636472832%N; 133978738303535421318501433712703488307232768%N;
  133978738303535421318501434000933864458944512%N; 133980110066827071351682270729820073774546944%N; 133978706402063522480520484309564417730674688%N;
  174394713046980962524979486308781208371200%N; 44775885115300524104131243660136000549552128%N; 133978865909423016670425232478181275220312064%N;
  133978865909423016670425232766411651372023808%N; 133980237672714666703606069495297860687626240%N; 133978876543246982949752215996868133614780416%N;
  2274868855983470403508689700531711616526322416%N; 2141063013023802717767608610522722537047067376%N; 5657194350060601955078602848553146515456%N;
  44781372168467124236854590575680837811961856%N; 2140871625460065227726414167427939706128567024%N; 133984352962589616803148579393726112482721792%N;
  133984438033181347037764445525608346576486400%N; 133984459300829279596418411986521311061999616%N; 134332908444556320583004907584531441710530560%N;
  175117813076687956759839157349573715820544%N; 174267107159386229571200364647031668473856%N; 174288374807318169255147181743958780805120%N;
  680564733841876926926749214863536422912%N; 701832381774435580893210127828021936128%N; 2277993044256592521732465583389082061390217216%N;
  2140888107887205355397388435974502608186378992%N; 2140882493228151159912741290221422389972962032%N;
  2140882471960503227354087323760509425487448816%N; 2141230942371878200899327785819432520621492976%N;
  2140888086619557422838734469513589643700865776%N; 2141236557030932396383974931572512738834909936%N; 174437248342846079832912408134710179397632%N;
  191408831393027885698148216680369618944%N; 133985724725881266836329416122612321798324224%N; 133984321061117717965167629702356665754451968%N;
  354085070429169029887607739945719309533184%N; 174352188135710181256721465359882252189696%N; 174267107159386229571200363521131744854016%N;
  174267117543979946640855621708024310136832%N; 522716250886427216157695961531262393384960%N; 174373455783642739910687926272846737702912%N;
  522822599510683726497183524282977386233856%N; 174352177751126367707380490215189416771584%N; 44601532937549408258914197095653148312207360%N;
  133804513731671900825208185913698422982967296%N; 133804513731671900825208186201928799134679040%N; 133805885494963550858389022930815008450281472%N;
  133804481830200001987227236510559352406409216%N; 522716250886426597187676318841124943822848%N; 174267107159385610601180721956894202134528%N;
  174267107159396133091514646563331474718720%N; 1427247692705959881058285969449495136382746624%N; 44607147596603603743561342776675772487696384%N;
  133810128390726096309855331594721047158456320%N; 133810128390726096309855331882951423310168064%N; 133811500154017746343036168611837632625770496%N;
  133810096489254197471874382191581976581898240%N; 713798072295406987723893763543668753180917760%N; 713798455113069773779665159840102113920155648%N;
  50331648%N; 713799135677803615656592086589316977456578560%N; 713799093142507750539284153667491048485552128%N
].
Definition cert_items : list (list (Z * Z * Z)) := [
  [(1, 0, 0); (2, 0, 0); (3, 0, 0); (4, 0, 1); (144, 0, 2); (500, 0, 3)];
  [(500, 1, 4)];
  [(1, 1, 0)];
  [(2, 0, 0); (2, 1, 0); (3, 0, 0); (3, 1, 0); (4, 0, 1); (144, 0, 2); (500, 0, 3)];
  [(4, 1, 1)];
  [(144, 1, 2); (145, 0, 2); (146, 0, 2); (147, 0, 2); (148, 0, 5); (149, 0, 2)];
  [(1, 2, 0)];
  [(3, 2, 0)];
  [(4, 2, 1); (157, 0, 6); (158, 0, 6)];
  [(148, 1, 5); (150, 0, 7); (151, 0, 7); (152, 0, 8); (153, 0, 8); (154, 0, 8); (155, 0, 8); (156, 0, 8); (368, 0, 8); (498, 0, 9)];
  [(144, 2, 2)];
  [(145, 1, 2); (149, 1, 2); (374, 0, 2)];
  [(146, 1, 2)];
  [(157, 1, 6)];
  [(4, 3, 1); (159, 0, 10); (160, 0, 10); (161, 0, 10); (162, 0, 10)];
  [(155, 1, 11)];
  [(498, 1, 12)];
  [(148, 2, 5)];
  [(150, 0, 7); (150, 1, 7); (151, 0, 7); (151, 1, 7); (152, 0, 8); (153, 0, 8); (154, 0, 8); (155, 0, 8); (156, 0, 8); (368, 0, 8); (498, 0, 9)];
  [(153, 1, 8)];
  [(154, 1, 8)];
  [(152, 1, 8)];
  [(156, 1, 8); (368, 1, 8)];
  [(374, 1, 13); (375, 0, 14)];
  [(149, 2, 2)];
  [(157, 2, 6)];
  [(161, 1, 10)];
  [(159, 1, 10)];
  [(160, 1, 10)];
  [(4, 4, 1); (163, 0, 15); (164, 0, 15)];
  [(148, 3, 5)];
  [(151, 2, 7)];
  [(155, 0, 16); (156, 2, 8)];
  [(375, 1, 14); (378, 0, 14); (379, 0, 14)];
  [(374, 2, 13); (376, 0, 17); (377, 0, 17)];
  [(161, 2, 10)];
  [(159, 2, 10)];
  [(160, 2, 10)];
  [(163, 1, 15)];
  [(4, 5, 1)];
  [(156, 3, 8)];
  [(378, 1, 14)];
  [(379, 1, 14)];
  [(375, 2, 14)];
  [(376, 1, 17); (378, 0, 14); (379, 0, 14)];
  [(374, 3, 13)];
  [(163, 2, 15)];
  [(4, 6, 1)];
  [(156, 4, 8)];
  [(376, 0, 17); (376, 2, 17); (377, 0, 17)];
  [(374, 4, 13)];
  [(4, 7, 1); (165, 0, 18); (166, 0, 18); (167, 0, 19); (168, 0, 19); (169, 0, 19)];
  [(376, 3, 17)];

  [(167, 1, 19); (168, 1, 19); (170, 0, 20); (171, 0, 20); (181, 0, 21); (182, 0, 21); (183, 0, 21); (184, 0, 21); (185, 0, 21); (186, 0, 21); (497, 0, 22); (499, 0, 21)];
  [(4, 8, 1); (143, 0, 18)];
  [(165, 1, 18); (172, 0, 23); (173, 0, 23)];
  [(168, 2, 19)];
  [(497, 1, 24)];
  [(499, 1, 25); (646, 1, 26)];
  [(167, 2, 19)];
  [(170, 1, 20); (182, 1, 21)];
  [(181, 1, 27)];
  [(183, 1, 27)];
  [(184, 1, 28); (185, 1, 28)];
  [(186, 1, 29); (649, 1, 30)];
  [(4, 9, 1)];

  [(172, 1, 23); (174, 0, 20); (175, 0, 20); (176, 0, 31); (177, 0, 31); (178, 0, 31); (181, 0, 32); (182, 0, 32); (183, 0, 32); (184, 0, 32); (185, 0, 32); (186, 0, 32); (497, 0, 33); (499, 0, 32)];

  [(12, 0, 34); (86, 0, 34); (95, 0, 34); (96, 0, 34); (97, 0, 34); (98, 0, 34); (99, 0, 34); (100, 0, 34); (101, 0, 34); (102, 0, 34); (165, 2, 18); (187, 0, 18); (188, 0, 18); (189, 0, 34); (190, 0, 34); (191, 0, 34); (192, 0, 34); (193, 0, 34); (194, 0, 34); (209, 0, 34); (210, 0, 34); (497, 0, 35); (499, 0, 36)];
  [(168, 3, 19)];
  [(167, 3, 19)];
  [(182, 2, 27); (183, 0, 27); (184, 0, 27); (185, 0, 27); (186, 0, 27); (497, 0, 37); (499, 0, 27)];
  [(185, 2, 29); (648, 2, 30)];
  [(4, 10, 1)];
  [(172, 2, 23)];

  [(174, 1, 20); (177, 1, 31); (178, 0, 31); (181, 0, 32); (182, 0, 32); (183, 0, 32); (184, 0, 32); (185, 0, 32); (186, 0, 32); (497, 0, 33); (499, 0, 32)];
  [(176, 1, 31)];
  [(178, 1, 31); (182, 1, 32)];
  [(191, 1, 34)];
  [(193, 1, 34)];
  [(194, 1, 34)];
  [(95, 1, 34)];
  [(96, 1, 34)];
  [(97, 1, 34)];
  [(98, 1, 34)];
  [(165, 3, 18)];

  [(12, 0, 34); (86, 0, 34); (95, 0, 34); (96, 0, 34); (97, 0, 34); (98, 0, 34); (99, 0, 34); (100, 0, 34); (101, 0, 34); (102, 0, 34); (187, 0, 18); (187, 1, 18); (188, 0, 18); (188, 1, 18); (189, 0, 34); (190, 0, 34); (191, 0, 34); (192, 0, 34); (193, 0, 34); (194, 0, 34); (209, 0, 34); (210, 0, 34); (497, 0, 35); (499, 0, 36)];
  [(189, 1, 34)];
  [(190, 1, 34)];
  [(192, 1, 34)];
  [(12, 1, 34); (83, 0, 15); (84, 0, 15); (85, 0, 15); (86, 1, 34); (99, 1, 34); (101, 1, 34); (102, 1, 34); (103, 0, 38); (209, 1, 34); (497, 0, 15)];

  [(10, 0, 44); (11, 0, 44); (67, 0, 44); (68, 0, 44); (69, 0, 44); (93, 0, 39); (94, 0, 39); (100, 1, 34); (103, 0, 40); (112, 0, 44); (113, 0, 39); (114, 0, 39); (115, 0, 45); (116, 0, 45); (195, 0, 39); (196, 0, 39); (197, 0, 39); (200, 0, 39); (207, 0, 41); (210, 1, 34); (212, 0, 39); (213, 0, 39); (214, 0, 39); (215, 0, 39); (216, 0, 39); (217, 0, 39); (218, 0, 39); (219, 0, 39); (220, 0, 39); (221, 0, 39); (222, 0, 39); (223, 0, 39); (224, 0, 39); (225, 0, 39); (226, 0, 39); (227, 0, 39); (228, 0, 39); (229, 0, 39); (230, 0, 39); (231, 0, 39); (232, 0, 39); (233, 0, 39); (234, 0, 39); (235, 0, 39); (236, 0, 39); (237, 0, 39); (238, 0, 39); (239, 0, 39); (240, 0, 39); (241, 0, 39); (242, 0, 39); (243, 0, 39); (244, 0, 39); (245, 0, 39); (246, 0, 39); (247, 0, 39); (284, 0, 39); (287, 0, 39); (288, 0, 39); (295, 0, 39); (304, 0, 39); (305, 0, 39); (306, 0, 39); (311, 0, 39); (312, 0, 39); (313, 0, 39); (314, 0, 39); (333, 0, 15); (334, 0, 39); (335, 0, 39); (336, 0, 39); (337, 0, 15); (338, 0, 39); (339, 0, 39); (346, 0, 15); (347, 0, 39); (348, 0, 15); (349, 0, 15); (350, 0, 15); (351, 0, 46); (360, 0, 39); (372, 0, 39); (373, 0, 39); (380, 0, 39); (381, 0, 39); (382, 0, 39); (383, 0, 39); (385, 0, 39); (386, 0, 39); (387, 0, 39); (388, 0, 39); (389, 0, 39); (390, 0, 39); (391, 0, 39); (392, 0, 39); (393, 0, 39); (394, 0, 39); (395, 0, 39); (396, 0, 39); (397, 0, 39); (398, 0, 39); (399, 0, 39); (400, 0, 39); (401, 0, 39); (402, 0, 39); (403, 0, 39); (404, 0, 39); (405, 0, 39); (406, 0, 39); (407, 0, 15); (408, 0, 15); (409, 0, 15); (410, 0, 15); (411, 0, 39); (412, 0, 39); (413, 0, 39); (414, 0, 39); (497, 0, 42); (498, 0, 43)];
  [(182, 3, 27)];
  [(185, 3, 29); (648, 3, 30)];
  [(172, 3, 23)];
  [(177, 2, 31)];
  [(178, 2, 31); (179, 0, 31); (180, 0, 31); (500, 0, 47)];
  [(188, 2, 18)];
  [(68, 1, 44)];
  [(11, 1, 48)];
  [(217, 1, 49); (605, 1, 7)];
  [(312, 1, 49)];
  [(305, 1, 49); (306, 1, 49)];
  [(391, 1, 49)];
  [(284, 1, 49)];
  [(404, 1, 49)];
  [(339, 1, 49)];
  [(385, 1, 49)];
  [(387, 1, 49)];
  [(388, 1, 49)];
  [(381, 1, 49)];
  [(295, 1, 49)];
  [(382, 1, 49)];
  [(228, 1, 49); (616, 1, 7)];
  [(392, 1, 49)];
  [(393, 1, 49)];
  [(394, 1, 49)];
  [(114, 1, 49)];
  [(287, 1, 49); (288, 1, 49)];
  [(395, 1, 49)];
  [(396, 1, 49)];
  [(360, 1, 49)];
  [(234, 1, 49); (621, 1, 7)];
  [(311, 1, 49)];
  [(373, 1, 49)];
  [(397, 1, 49)];
  [(304, 1, 49)];
  [(372, 1, 49)];
  [(380, 1, 49)];
  [(313, 1, 49); (314, 1, 49); (333, 1, 50); (334, 1, 49); (409, 1, 50); (410, 1, 50); (413, 1, 49); (414, 1, 49); (415, 0, 51); (470, 0, 51)];
  [(335, 1, 49); (336, 1, 49); (337, 1, 50); (338, 1, 49); (407, 1, 50); (408, 1, 50); (411, 1, 49); (412, 1, 49); (415, 0, 51); (470, 0, 51)];
  [(399, 1, 49)];
  [(398, 1, 49)];
  [(383, 1, 49)];
  [(386, 1, 49)];
  [(10, 1, 48)];
  [(400, 1, 49)];
  [(247, 1, 49); (634, 1, 7)];
  [(401, 1, 49)];
  [(402, 1, 49)];
  [(403, 1, 49)];

  [(6, 0, 34); (8, 0, 34); (9, 0, 34); (10, 0, 55); (11, 0, 55); (12, 2, 34); (13, 0, 34); (14, 0, 34); (15, 0, 34); (67, 0, 44); (68, 0, 44); (69, 0, 44); (93, 0, 52); (94, 0, 52); (112, 0, 44); (113, 0, 52); (114, 0, 52); (115, 0, 45); (116, 0, 45); (195, 0, 52); (196, 0, 52); (197, 0, 52); (200, 0, 52); (207, 0, 53); (209, 2, 34); (212, 0, 52); (213, 0, 52); (214, 0, 52); (215, 0, 52); (216, 0, 52); (217, 0, 52); (218, 0, 52); (219, 0, 52); (220, 0, 52); (221, 0, 52); (222, 0, 52); (223, 0, 52); (224, 0, 52); (225, 0, 52); (226, 0, 52); (227, 0, 52); (228, 0, 52); (229, 0, 52); (230, 0, 52); (231, 0, 52); (232, 0, 52); (233, 0, 52); (234, 0, 52); (235, 0, 52); (236, 0, 52); (237, 0, 52); (238, 0, 52); (239, 0, 52); (240, 0, 52); (241, 0, 52); (242, 0, 52); (243, 0, 52); (244, 0, 52); (245, 0, 52); (246, 0, 52); (247, 0, 52); (284, 0, 52); (287, 0, 52); (288, 0, 52); (295, 0, 52); (304, 0, 52); (305, 0, 52); (306, 0, 52); (311, 0, 52); (312, 0, 52); (313, 0, 52); (314, 0, 52); (333, 0, 34); (334, 0, 52); (335, 0, 52); (336, 0, 52); (337, 0, 34); (338, 0, 52); (339, 0, 52); (346, 0, 34); (347, 0, 52); (348, 0, 34); (349, 0, 34); (350, 0, 34); (351, 0, 46); (360, 0, 52); (372, 0, 52); (373, 0, 52); (380, 0, 52); (381, 0, 52); (382, 0, 52); (383, 0, 52); (385, 0, 52); (386, 0, 52); (387, 0, 52); (388, 0, 52); (389, 0, 52); (390, 0, 52); (391, 0, 52); (392, 0, 52); (393, 0, 52); (394, 0, 52); (395, 0, 52); (396, 0, 52); (397, 0, 52); (398, 0, 52); (399, 0, 52); (400, 0, 52); (401, 0, 52); (402, 0, 52); (403, 0, 52); (404, 0, 52); (405, 0, 52); (406, 0, 52); (407, 0, 34); (408, 0, 34); (409, 0, 34); (410, 0, 34); (411, 0, 52); (412, 0, 52); (413, 0, 52); (414, 0, 52); (497, 0, 54); (498, 0, 43)];

  [(6, 0, 56); (8, 0, 56); (9, 0, 56); (10, 0, 60); (11, 0, 60); (67, 0, 44); (68, 0, 44); (69, 0, 44); (93, 0, 58); (94, 0, 58); (103, 1, 38); (104, 0, 30); (105, 0, 30); (106, 0, 30); (107, 0, 30); (108, 0, 56); (109, 0, 56); (110, 0, 56); (111, 0, 56); (112, 0, 44); (113, 0, 58); (114, 0, 58); (184, 0, 56); (185, 0, 56); (186, 0, 56); (207, 0, 58); (217, 0, 58); (218, 0, 58); (219, 0, 58); (220, 0, 58); (221, 0, 58); (222, 0, 58); (223, 0, 58); (224, 0, 58); (225, 0, 58); (226, 0, 58); (227, 0, 58); (228, 0, 58); (229, 0, 58); (230, 0, 58); (231, 0, 58); (232, 0, 58); (233, 0, 58); (234, 0, 58); (235, 0, 58); (236, 0, 58); (237, 0, 58); (238, 0, 58); (239, 0, 58); (240, 0, 58); (241, 0, 58); (242, 0, 58); (243, 0, 58); (244, 0, 58); (245, 0, 58); (246, 0, 58); (247, 0, 58); (284, 0, 58); (287, 0, 58); (288, 0, 58); (295, 0, 58); (304, 0, 58); (305, 0, 58); (306, 0, 58); (311, 0, 58); (312, 0, 58); (313, 0, 58); (314, 0, 58); (333, 0, 56); (334, 0, 58); (335, 0, 58); (336, 0, 58); (337, 0, 56); (338, 0, 58); (339, 0, 58); (346, 0, 56); (347, 0, 58); (348, 0, 56); (349, 0, 56); (350, 0, 56); (351, 0, 46); (360, 0, 58); (372, 0, 58); (373, 0, 58); (380, 0, 58); (381, 0, 58); (382, 0, 58); (383, 0, 58); (385, 0, 58); (386, 0, 58); (387, 0, 58); (388, 0, 58); (389, 0, 58); (390, 0, 58); (391, 0, 58); (392, 0, 58); (393, 0, 58); (394, 0, 58); (395, 0, 58); (396, 0, 58); (397, 0, 58); (398, 0, 58); (399, 0, 58); (400, 0, 58); (401, 0, 58); (402, 0, 58); (403, 0, 58); (404, 0, 58); (407, 0, 56); (408, 0, 56); (409, 0, 56); (410, 0, 56); (411, 0, 58); (412, 0, 58); (413, 0, 58); (414, 0, 58); (497, 0, 57); (498, 0, 43); (499, 0, 56); (646, 0, 59); (647, 0, 30); (648, 0, 30); (649, 0, 30); (650, 0, 58); (651, 0, 58); (652, 0, 58); (653, 0, 58); (654, 0, 58); (655, 0, 58); (656, 0, 61); (657, 0, 58); (658, 0, 58)];
  [(351, 1, 46); (352, 0, 62); (353, 0, 62)];
  [(497, 1, 63)];
  [(93, 1, 49)];
  [(112, 1, 44)];
  [(67, 1, 44)];
  [(86, 2, 34)];
  [(83, 1, 64)];
  [(233, 1, 49)];

  [(10, 0, 44); (11, 0, 44); (67, 0, 44); (68, 0, 44); (69, 0, 44); (93, 0, 39); (94, 0, 39); (99, 2, 34); (101, 2, 34); (102, 2, 34); (112, 0, 44); (113, 0, 39); (114, 0, 39); (115, 0, 45); (116, 0, 45); (195, 0, 39); (196, 0, 39); (197, 0, 39); (200, 0, 39); (207, 0, 41); (212, 0, 39); (213, 0, 39); (214, 0, 39); (215, 0, 39); (216, 0, 39); (217, 0, 39); (218, 0, 39); (219, 0, 39); (220, 0, 39); (221, 0, 39); (222, 0, 39); (223, 0, 39); (224, 0, 39); (225, 0, 39); (226, 0, 39); (227, 0, 39); (228, 0, 39); (229, 0, 39); (230, 0, 39); (231, 0, 39); (232, 0, 39); (233, 0, 39); (234, 0, 39); (235, 0, 39); (236, 0, 39); (237, 0, 39); (238, 0, 39); (239, 0, 39); (240, 0, 39); (241, 0, 39); (242, 0, 39); (243, 0, 39); (244, 0, 39); (245, 0, 39); (246, 0, 39); (247, 0, 39); (284, 0, 39); (287, 0, 39); (288, 0, 39); (295, 0, 39); (304, 0, 39); (305, 0, 39); (306, 0, 39); (311, 0, 39); (312, 0, 39); (313, 0, 39); (314, 0, 39); (333, 0, 15); (334, 0, 39); (335, 0, 39); (336, 0, 39); (337, 0, 15); (338, 0, 39); (339, 0, 39); (346, 0, 15); (347, 0, 39); (348, 0, 15); (349, 0, 15); (350, 0, 15); (351, 0, 46); (360, 0, 39); (372, 0, 39); (373, 0, 39); (380, 0, 39); (381, 0, 39); (382, 0, 39); (383, 0, 39); (385, 0, 39); (386, 0, 39); (387, 0, 39); (388, 0, 39); (389, 0, 39); (390, 0, 39); (391, 0, 39); (392, 0, 39); (393, 0, 39); (394, 0, 39); (395, 0, 39); (396, 0, 39); (397, 0, 39); (398, 0, 39); (399, 0, 39); (400, 0, 39); (401, 0, 39); (402, 0, 39); (403, 0, 39); (404, 0, 39); (405, 0, 39); (406, 0, 39); (407, 0, 15); (408, 0, 15); (409, 0, 15); (410, 0, 15); (411, 0, 39); (412, 0, 39); (413, 0, 39); (414, 0, 39); (497, 0, 42); (498, 0, 43)];
  [(113, 1, 49)];
  [(216, 1, 49); (604, 1, 7); (654, 1, 58)];
  [(229, 1, 49); (617, 1, 7)];
  [(200, 1, 49)];
  [(214, 1, 49); (602, 1, 7); (652, 1, 58)];
  [(197, 1, 49)];
  [(115, 1, 45); (195, 1, 49); (655, 1, 58)];
  [];
  [(212, 1, 49); (600, 1, 7); (650, 1, 58)];
  [(219, 1, 49); (607, 1, 7)];
  [(230, 1, 49); (618, 1, 7)];
  [(226, 1, 49); (614, 1, 7)];
  [(237, 1, 49); (624, 1, 7)];
  [(218, 1, 49); (606, 1, 7)];
  [(236, 1, 49); (623, 1, 7)];
  [(232, 1, 49)];
  [(240, 1, 49); (627, 1, 7)];
  [(241, 1, 49); (628, 1, 7)];
  [(242, 1, 49); (629, 1, 7)];
  [(243, 1, 49); (630, 1, 7)];
  [(221, 1, 49); (609, 1, 7)];
  [(215, 1, 49); (603, 1, 7); (653, 1, 58)];
  [(244, 1, 49); (631, 1, 7)];
  [(347, 1, 49)];

  [(10, 0, 44); (11, 0, 44); (67, 0, 44); (68, 0, 44); (69, 0, 44); (93, 0, 49); (94, 0, 49); (112, 0, 44); (113, 0, 49); (114, 0, 49); (115, 0, 45); (116, 0, 45); (195, 0, 49); (196, 0, 49); (197, 0, 49); (200, 0, 49); (207, 0, 65); (212, 0, 49); (213, 0, 49); (214, 0, 49); (215, 0, 49); (216, 0, 49); (217, 0, 49); (218, 0, 49); (219, 0, 49); (220, 0, 49); (221, 0, 49); (222, 0, 49); (223, 0, 49); (224, 0, 49); (225, 0, 49); (226, 0, 49); (227, 0, 49); (228, 0, 49); (229, 0, 49); (230, 0, 49); (231, 0, 49); (232, 0, 49); (233, 0, 49); (234, 0, 49); (235, 0, 49); (236, 0, 49); (237, 0, 49); (238, 0, 49); (239, 0, 49); (240, 0, 49); (241, 0, 49); (242, 0, 49); (243, 0, 49); (244, 0, 49); (245, 0, 49); (246, 0, 49); (247, 0, 49); (284, 0, 49); (287, 0, 49); (288, 0, 49); (295, 0, 49); (304, 0, 49); (305, 0, 49); (306, 0, 49); (311, 0, 49); (312, 0, 49); (313, 0, 49); (314, 0, 49); (333, 0, 50); (334, 0, 49); (335, 0, 49); (336, 0, 49); (337, 0, 50); (338, 0, 49); (339, 0, 49); (346, 0, 50); (347, 0, 49); (348, 0, 50); (348, 1, 50); (349, 0, 50); (349, 1, 50); (350, 0, 50); (350, 1, 50); (351, 0, 46); (360, 0, 49); (372, 0, 49); (373, 0, 49); (380, 0, 49); (381, 0, 49); (382, 0, 49); (383, 0, 49); (385, 0, 49); (386, 0, 49); (387, 0, 49); (388, 0, 49); (389, 0, 49); (390, 0, 49); (391, 0, 49); (392, 0, 49); (393, 0, 49); (394, 0, 49); (395, 0, 49); (396, 0, 49); (397, 0, 49); (398, 0, 49); (399, 0, 49); (400, 0, 49); (401, 0, 49); (402, 0, 49); (403, 0, 49); (404, 0, 49); (405, 0, 49); (406, 0, 49); (407, 0, 50); (408, 0, 50); (409, 0, 50); (410, 0, 50); (411, 0, 49); (412, 0, 49); (413, 0, 49); (414, 0, 49); (497, 0, 63); (498, 0, 43)];
  [(235, 1, 49); (622, 1, 7)];
  [(239, 1, 49); (626, 1, 7)];
  [(231, 1, 49); (619, 1, 7)];
  [(238, 1, 49); (625, 1, 7)];
  [(225, 1, 49); (613, 1, 7)];
  [(227, 1, 49); (615, 1, 7)];
  [(245, 1, 49); (632, 1, 7)];
  [(222, 1, 49); (610, 1, 7)];
  [(246, 1, 49); (633, 1, 7)];
  [(223, 1, 49); (611, 1, 7)];
  [(224, 1, 49); (612, 1, 7)];
  [(220, 1, 49); (608, 1, 7)];
  [(389, 1, 49)];
  [(390, 1, 49)];
  [(213, 1, 49); (601, 1, 7); (651, 1, 58)];
  [(406, 1, 49); (658, 1, 58)];
  [(84, 1, 64)];
  [(346, 1, 50)];
  [(85, 1, 15)];

  [(10, 0, 44); (11, 0, 44); (67, 0, 44); (68, 0, 44); (69, 0, 44); (93, 0, 39); (94, 0, 39); (100, 2, 34); (112, 0, 44); (113, 0, 39); (114, 0, 39); (115, 0, 45); (116, 0, 45); (195, 0, 39); (196, 0, 39); (197, 0, 39); (200, 0, 39); (207, 0, 41); (212, 0, 39); (213, 0, 39); (214, 0, 39); (215, 0, 39); (216, 0, 39); (217, 0, 39); (218, 0, 39); (219, 0, 39); (220, 0, 39); (221, 0, 39); (222, 0, 39); (223, 0, 39); (224, 0, 39); (225, 0, 39); (226, 0, 39); (227, 0, 39); (228, 0, 39); (229, 0, 39); (230, 0, 39); (231, 0, 39); (232, 0, 39); (233, 0, 39); (234, 0, 39); (235, 0, 39); (236, 0, 39); (237, 0, 39); (238, 0, 39); (239, 0, 39); (240, 0, 39); (241, 0, 39); (242, 0, 39); (243, 0, 39); (244, 0, 39); (245, 0, 39); (246, 0, 39); (247, 0, 39); (284, 0, 39); (287, 0, 39); (288, 0, 39); (295, 0, 39); (304, 0, 39); (305, 0, 39); (306, 0, 39); (311, 0, 39); (312, 0, 39); (313, 0, 39); (314, 0, 39); (333, 0, 15); (334, 0, 39); (335, 0, 39); (336, 0, 39); (337, 0, 15); (338, 0, 39); (339, 0, 39); (346, 0, 15); (347, 0, 39); (348, 0, 15); (349, 0, 15); (350, 0, 15); (351, 0, 46); (360, 0, 39); (372, 0, 39); (373, 0, 39); (380, 0, 39); (381, 0, 39); (382, 0, 39); (383, 0, 39); (385, 0, 39); (386, 0, 39); (387, 0, 39); (388, 0, 39); (389, 0, 39); (390, 0, 39); (391, 0, 39); (392, 0, 39); (393, 0, 39); (394, 0, 39); (395, 0, 39); (396, 0, 39); (397, 0, 39); (398, 0, 39); (399, 0, 39); (400, 0, 39); (401, 0, 39); (402, 0, 39); (403, 0, 39); (404, 0, 39); (405, 0, 39); (406, 0, 39); (407, 0, 15); (408, 0, 15); (409, 0, 15); (410, 0, 15); (411, 0, 39); (412, 0, 39); (413, 0, 39); (414, 0, 39); (497, 0, 42); (498, 0, 43)];
  [(210, 2, 34); (405, 1, 39); (415, 0, 39)];
  [(94, 1, 49); (116, 1, 45); (196, 1, 49); (207, 1, 65)];
  [(69, 1, 44)];
  [(178, 3, 31)];
  [(179, 1, 31); (180, 1, 31); (361, 0, 31)];
  [(305, 2, 49); (306, 2, 49)];
  [(404, 2, 49)];
  [(248, 0, 30); (339, 2, 49); (340, 0, 7); (341, 0, 7); (342, 0, 7); (343, 0, 7); (344, 0, 30); (345, 0, 30); (498, 0, 40)];
  [(381, 2, 49)];

  [(291, 0, 30); (292, 0, 30); (295, 2, 49); (296, 0, 7); (297, 0, 7); (298, 0, 7); (299, 0, 7); (300, 0, 30); (301, 0, 30); (302, 0, 30); (303, 0, 30); (498, 0, 66)];
  [(6, 0, 49); (8, 0, 49); (9, 0, 49); (10, 0, 49); (11, 0, 49); (114, 2, 49)];
  [(288, 2, 49); (289, 0, 30); (290, 0, 30); (291, 0, 30); (292, 0, 30); (498, 0, 61)];
  [(360, 2, 49)];
  [(311, 2, 49)];

  [(10, 0, 44); (11, 0, 44); (67, 0, 44); (68, 0, 44); (69, 0, 44); (93, 0, 49); (94, 0, 49); (112, 0, 44); (113, 0, 49); (114, 0, 49); (115, 0, 45); (116, 0, 45); (195, 0, 49); (196, 0, 49); (197, 0, 49); (200, 0, 49); (207, 0, 65); (212, 0, 49); (213, 0, 49); (214, 0, 49); (215, 0, 49); (216, 0, 49); (217, 0, 49); (218, 0, 49); (219, 0, 49); (220, 0, 49); (221, 0, 49); (222, 0, 49); (223, 0, 49); (224, 0, 49); (225, 0, 49); (226, 0, 49); (227, 0, 49); (228, 0, 49); (229, 0, 49); (230, 0, 49); (231, 0, 49); (232, 0, 49); (233, 0, 49); (234, 0, 49); (235, 0, 49); (236, 0, 49); (237, 0, 49); (238, 0, 49); (239, 0, 49); (240, 0, 49); (241, 0, 49); (242, 0, 49); (243, 0, 49); (244, 0, 49); (245, 0, 49); (246, 0, 49); (247, 0, 49); (248, 0, 50); (284, 0, 49); (287, 0, 49); (288, 0, 49); (295, 0, 49); (304, 0, 49); (305, 0, 49); (306, 0, 49); (311, 0, 49); (312, 0, 49); (313, 0, 49); (314, 0, 49); (333, 0, 50); (333, 2, 50); (334, 0, 49); (334, 2, 49); (335, 0, 49); (336, 0, 49); (337, 0, 50); (338, 0, 49); (339, 0, 49); (346, 0, 50); (347, 0, 49); (348, 0, 50); (349, 0, 50); (350, 0, 50); (351, 0, 46); (360, 0, 49); (372, 0, 49); (373, 0, 49); (380, 0, 49); (381, 0, 49); (382, 0, 49); (383, 0, 49); (385, 0, 49); (386, 0, 49); (387, 0, 49); (388, 0, 49); (389, 0, 49); (390, 0, 49); (391, 0, 49); (392, 0, 49); (393, 0, 49); (394, 0, 49); (395, 0, 49); (396, 0, 49); (397, 0, 49); (398, 0, 49); (399, 0, 49); (400, 0, 49); (401, 0, 49); (402, 0, 49); (403, 0, 49); (404, 0, 49); (405, 0, 49); (406, 0, 49); (407, 0, 50); (408, 0, 50); (409, 0, 50); (410, 0, 50); (411, 0, 49); (412, 0, 49); (413, 0, 49); (414, 0, 49); (497, 0, 63); (498, 0, 67)];
  [(415, 0, 68); (470, 1, 68)];

  [(10, 0, 44); (11, 0, 44); (67, 0, 44); (68, 0, 44); (69, 0, 44); (93, 0, 69); (94, 0, 69); (112, 0, 44); (113, 0, 69); (114, 0, 69); (115, 0, 45); (116, 0, 45); (195, 0, 69); (196, 0, 69); (197, 0, 69); (200, 0, 69); (207, 0, 71); (212, 0, 69); (213, 0, 69); (214, 0, 69); (215, 0, 69); (216, 0, 69); (217, 0, 69); (218, 0, 69); (219, 0, 69); (220, 0, 69); (221, 0, 69); (222, 0, 69); (223, 0, 69); (224, 0, 69); (225, 0, 69); (226, 0, 69); (227, 0, 69); (228, 0, 69); (229, 0, 69); (230, 0, 69); (231, 0, 69); (232, 0, 69); (233, 0, 69); (234, 0, 69); (235, 0, 69); (236, 0, 69); (237, 0, 69); (238, 0, 69); (239, 0, 69); (240, 0, 69); (241, 0, 69); (242, 0, 69); (243, 0, 69); (244, 0, 69); (245, 0, 69); (246, 0, 69); (247, 0, 69); (248, 0, 70); (284, 0, 69); (287, 0, 69); (288, 0, 69); (295, 0, 69); (304, 0, 69); (305, 0, 69); (306, 0, 69); (311, 0, 69); (312, 0, 69); (313, 0, 69); (313, 2, 49); (314, 0, 69); (314, 2, 49); (315, 0, 7); (316, 0, 7); (317, 0, 7); (318, 0, 7); (319, 0, 7); (320, 0, 7); (321, 0, 7); (322, 0, 7); (323, 0, 7); (324, 0, 30); (325, 0, 30); (326, 0, 30); (327, 0, 30); (328, 0, 30); (329, 0, 30); (330, 0, 30); (331, 0, 30); (332, 0, 30); (333, 0, 70); (334, 0, 69); (335, 0, 69); (336, 0, 69); (337, 0, 70); (338, 0, 69); (339, 0, 69); (346, 0, 70); (347, 0, 69); (348, 0, 70); (349, 0, 70); (350, 0, 70); (351, 0, 46); (360, 0, 69); (372, 0, 69); (373, 0, 69); (380, 0, 69); (381, 0, 69); (382, 0, 69); (383, 0, 69); (385, 0, 69); (386, 0, 69); (387, 0, 69); (388, 0, 69); (389, 0, 69); (390, 0, 69); (391, 0, 69); (392, 0, 69); (393, 0, 69); (394, 0, 69); (395, 0, 69); (396, 0, 69); (397, 0, 69); (398, 0, 69); (399, 0, 69); (400, 0, 69); (401, 0, 69); (402, 0, 69); (403, 0, 69); (404, 0, 69); (405, 0, 69); (406, 0, 69); (407, 0, 70); (408, 0, 70); (409, 0, 70); (410, 0, 70); (411, 0, 69); (412, 0, 69); (413, 0, 69); (414, 0, 69); (497, 0, 72); (498, 0, 67)];

  [(87, 0, 76); (117, 0, 45); (118, 0, 45); (119, 0, 74); (120, 0, 74); (121, 0, 74); (122, 0, 74); (130, 0, 74); (131, 0, 74); (140, 0, 74); (141, 0, 74); (142, 0, 74); (201, 0, 82); (208, 0, 45); (285, 0, 82); (286, 0, 82); (293, 0, 82); (294, 0, 82); (384, 0, 82); (415, 1, 73); (416, 0, 74); (417, 0, 74); (418, 0, 74); (419, 0, 74); (420, 0, 74); (421, 0, 74); (422, 0, 75); (423, 0, 75); (424, 0, 77); (425, 0, 77); (426, 0, 79); (427, 0, 78); (428, 0, 78); (429, 0, 80); (430, 0, 78); (431, 0, 78); (432, 0, 81); (438, 0, 26); (439, 0, 26); (440, 0, 26); (441, 0, 26); (442, 0, 26); (443, 0, 26); (444, 0, 26); (446, 0, 26); (447, 0, 26); (448, 0, 26); (459, 0, 26); (460, 0, 40); (461, 0, 26); (462, 0, 83); (463, 0, 83); (466, 0, 85); (467, 0, 85); (470, 0, 26); (472, 0, 26); (473, 0, 26); (474, 0, 26); (491, 0, 26); (499, 0, 45); (635, 0, 82); (636, 0, 82); (637, 0, 82); (638, 0, 82); (639, 0, 82); (640, 0, 82); (641, 0, 82); (642, 0, 82); (643, 0, 82); (644, 0, 82); (645, 0, 82); (646, 0, 84)];
  [(409, 2, 50); (413, 2, 49)];
  [(410, 2, 50); (414, 2, 49)];

  [(10, 0, 44); (11, 0, 44); (67, 0, 44); (68, 0, 44); (69, 0, 44); (93, 0, 49); (94, 0, 49); (112, 0, 44); (113, 0, 49); (114, 0, 49); (115, 0, 45); (116, 0, 45); (195, 0, 49); (196, 0, 49); (197, 0, 49); (200, 0, 49); (207, 0, 65); (212, 0, 49); (213, 0, 49); (214, 0, 49); (215, 0, 49); (216, 0, 49); (217, 0, 49); (218, 0, 49); (219, 0, 49); (220, 0, 49); (221, 0, 49); (222, 0, 49); (223, 0, 49); (224, 0, 49); (225, 0, 49); (226, 0, 49); (227, 0, 49); (228, 0, 49); (229, 0, 49); (230, 0, 49); (231, 0, 49); (232, 0, 49); (233, 0, 49); (234, 0, 49); (235, 0, 49); (236, 0, 49); (237, 0, 49); (238, 0, 49); (239, 0, 49); (240, 0, 49); (241, 0, 49); (242, 0, 49); (243, 0, 49); (244, 0, 49); (245, 0, 49); (246, 0, 49); (247, 0, 49); (248, 0, 50); (284, 0, 49); (287, 0, 49); (288, 0, 49); (295, 0, 49); (304, 0, 49); (305, 0, 49); (306, 0, 49); (311, 0, 49); (312, 0, 49); (313, 0, 49); (314, 0, 49); (333, 0, 50); (334, 0, 49); (335, 0, 49); (336, 0, 49); (337, 0, 50); (337, 2, 50); (338, 0, 49); (338, 2, 49); (339, 0, 49); (346, 0, 50); (347, 0, 49); (348, 0, 50); (349, 0, 50); (350, 0, 50); (351, 0, 46); (360, 0, 49); (372, 0, 49); (373, 0, 49); (380, 0, 49); (381, 0, 49); (382, 0, 49); (383, 0, 49); (385, 0, 49); (386, 0, 49); (387, 0, 49); (388, 0, 49); (389, 0, 49); (390, 0, 49); (391, 0, 49); (392, 0, 49); (393, 0, 49); (394, 0, 49); (395, 0, 49); (396, 0, 49); (397, 0, 49); (398, 0, 49); (399, 0, 49); (400, 0, 49); (401, 0, 49); (402, 0, 49); (403, 0, 49); (404, 0, 49); (405, 0, 49); (406, 0, 49); (407, 0, 50); (408, 0, 50); (409, 0, 50); (410, 0, 50); (411, 0, 49); (412, 0, 49); (413, 0, 49); (414, 0, 49); (497, 0, 63); (498, 0, 67)];

  [(10, 0, 44); (11, 0, 44); (67, 0, 44); (68, 0, 44); (69, 0, 44); (93, 0, 69); (94, 0, 69); (112, 0, 44); (113, 0, 69); (114, 0, 69); (115, 0, 45); (116, 0, 45); (195, 0, 69); (196, 0, 69); (197, 0, 69); (200, 0, 69); (207, 0, 71); (212, 0, 69); (213, 0, 69); (214, 0, 69); (215, 0, 69); (216, 0, 69); (217, 0, 69); (218, 0, 69); (219, 0, 69); (220, 0, 69); (221, 0, 69); (222, 0, 69); (223, 0, 69); (224, 0, 69); (225, 0, 69); (226, 0, 69); (227, 0, 69); (228, 0, 69); (229, 0, 69); (230, 0, 69); (231, 0, 69); (232, 0, 69); (233, 0, 69); (234, 0, 69); (235, 0, 69); (236, 0, 69); (237, 0, 69); (238, 0, 69); (239, 0, 69); (240, 0, 69); (241, 0, 69); (242, 0, 69); (243, 0, 69); (244, 0, 69); (245, 0, 69); (246, 0, 69); (247, 0, 69); (248, 0, 70); (284, 0, 69); (287, 0, 69); (288, 0, 69); (295, 0, 69); (304, 0, 69); (305, 0, 69); (306, 0, 69); (311, 0, 69); (312, 0, 69); (313, 0, 69); (314, 0, 69); (315, 0, 7); (316, 0, 7); (317, 0, 7); (318, 0, 7); (319, 0, 7); (320, 0, 7); (321, 0, 7); (322, 0, 7); (323, 0, 7); (324, 0, 30); (325, 0, 30); (326, 0, 30); (327, 0, 30); (328, 0, 30); (329, 0, 30); (330, 0, 30); (331, 0, 30); (332, 0, 30); (333, 0, 70); (334, 0, 69); (335, 0, 69); (335, 2, 49); (336, 0, 69); (336, 2, 49); (337, 0, 70); (338, 0, 69); (339, 0, 69); (346, 0, 70); (347, 0, 69); (348, 0, 70); (349, 0, 70); (350, 0, 70); (351, 0, 46); (360, 0, 69); (372, 0, 69); (373, 0, 69); (380, 0, 69); (381, 0, 69); (382, 0, 69); (383, 0, 69); (385, 0, 69); (386, 0, 69); (387, 0, 69); (388, 0, 69); (389, 0, 69); (390, 0, 69); (391, 0, 69); (392, 0, 69); (393, 0, 69); (394, 0, 69); (395, 0, 69); (396, 0, 69); (397, 0, 69); (398, 0, 69); (399, 0, 69); (400, 0, 69); (401, 0, 69); (402, 0, 69); (403, 0, 69); (404, 0, 69); (405, 0, 69); (406, 0, 69); (407, 0, 70); (408, 0, 70); (409, 0, 70); (410, 0, 70); (411, 0, 69); (412, 0, 69); (413, 0, 69); (414, 0, 69); (497, 0, 72); (498, 0, 67)];
  [(407, 2, 50); (411, 2, 49)];
  [(408, 2, 50); (412, 2, 49)];
  [(15, 1, 34)];
  [(497, 1, 86)];
  [(13, 1, 34)];
  [(6, 1, 49)];
  [(8, 1, 87); (93, 1, 88)];
  [(12, 3, 34)];
  [(14, 1, 34)];
  [(209, 3, 34); (405, 1, 52); (415, 0, 52)];
  [(9, 1, 87); (69, 1, 44)];
  [];
  [(498, 1, 90); (499, 1, 89); (646, 1, 84)];
  [(111, 1, 56)];
  [(103, 2, 38); (105, 1, 30)];
  [(104, 1, 30)];
  [(106, 1, 30)];
  [(108, 1, 56)];
  [(107, 1, 30); (109, 1, 56)];
  [(110, 1, 56); (415, 0, 58); (657, 1, 58)];
  [(94, 1, 58); (184, 1, 56); (185, 1, 56); (207, 1, 58); (647, 1, 30); (648, 1, 30); (656, 1, 61)];
  [(352, 1, 62)];
  [(351, 2, 46); (356, 0, 91); (357, 0, 91); (358, 0, 91); (359, 0, 91)];
  [(24, 0, 48); (25, 0, 48); (26, 0, 48); (27, 0, 48); (93, 2, 49)];
  [(86, 3, 34); (87, 0, 34)];

  [(6, 0, 34); (8, 0, 34); (9, 0, 34); (10, 0, 55); (11, 0, 55); (13, 0, 34); (14, 0, 34); (15, 0, 34); (67, 0, 44); (68, 0, 44); (69, 0, 44); (93, 0, 52); (94, 0, 52); (99, 3, 34); (102, 3, 34); (112, 0, 44); (113, 0, 52); (114, 0, 52); (115, 0, 45); (116, 0, 45); (195, 0, 52); (196, 0, 52); (197, 0, 52); (200, 0, 52); (207, 0, 53); (212, 0, 52); (213, 0, 52); (214, 0, 52); (215, 0, 52); (216, 0, 52); (217, 0, 52); (218, 0, 52); (219, 0, 52); (220, 0, 52); (221, 0, 52); (222, 0, 52); (223, 0, 52); (224, 0, 52); (225, 0, 52); (226, 0, 52); (227, 0, 52); (228, 0, 52); (229, 0, 52); (230, 0, 52); (231, 0, 52); (232, 0, 52); (233, 0, 52); (234, 0, 52); (235, 0, 52); (236, 0, 52); (237, 0, 52); (238, 0, 52); (239, 0, 52); (240, 0, 52); (241, 0, 52); (242, 0, 52); (243, 0, 52); (244, 0, 52); (245, 0, 52); (246, 0, 52); (247, 0, 52); (284, 0, 52); (287, 0, 52); (288, 0, 52); (295, 0, 52); (304, 0, 52); (305, 0, 52); (306, 0, 52); (311, 0, 52); (312, 0, 52); (313, 0, 52); (314, 0, 52); (333, 0, 34); (334, 0, 52); (335, 0, 52); (336, 0, 52); (337, 0, 34); (338, 0, 52); (339, 0, 52); (346, 0, 34); (347, 0, 52); (348, 0, 34); (349, 0, 34); (350, 0, 34); (351, 0, 46); (360, 0, 52); (372, 0, 52); (373, 0, 52); (380, 0, 52); (381, 0, 52); (382, 0, 52); (383, 0, 52); (385, 0, 52); (386, 0, 52); (387, 0, 52); (388, 0, 52); (389, 0, 52); (390, 0, 52); (391, 0, 52); (392, 0, 52); (393, 0, 52); (394, 0, 52); (395, 0, 52); (396, 0, 52); (397, 0, 52); (398, 0, 52); (399, 0, 52); (400, 0, 52); (401, 0, 52); (402, 0, 52); (403, 0, 52); (404, 0, 52); (405, 0, 52); (406, 0, 52); (407, 0, 34); (408, 0, 34); (409, 0, 34); (410, 0, 34); (411, 0, 52); (412, 0, 52); (413, 0, 52); (414, 0, 52); (497, 0, 54); (498, 0, 43)];
  [(101, 3, 34); (405, 1, 39); (415, 0, 39)];
  [(24, 0, 48); (25, 0, 48); (26, 0, 48); (27, 0, 48); (113, 2, 49)];

  [(10, 0, 44); (11, 0, 44); (67, 0, 44); (68, 0, 44); (69, 0, 44); (93, 0, 92); (94, 0, 92); (112, 0, 44); (113, 0, 92); (114, 0, 92); (115, 0, 45); (116, 0, 45); (195, 0, 92); (196, 0, 92); (197, 0, 92); (200, 0, 92); (200, 2, 49); (202, 0, 7); (204, 0, 7); (207, 0, 93); (212, 0, 61); (213, 0, 61); (214, 0, 61); (215, 0, 61); (216, 0, 61); (217, 0, 61); (218, 0, 61); (219, 0, 61); (220, 0, 61); (221, 0, 61); (222, 0, 61); (223, 0, 61); (224, 0, 61); (225, 0, 61); (226, 0, 61); (227, 0, 61); (228, 0, 61); (229, 0, 61); (230, 0, 61); (231, 0, 61); (232, 0, 61); (233, 0, 61); (234, 0, 61); (235, 0, 61); (236, 0, 61); (237, 0, 61); (238, 0, 61); (239, 0, 61); (240, 0, 61); (241, 0, 61); (242, 0, 61); (243, 0, 61); (244, 0, 61); (245, 0, 61); (246, 0, 61); (247, 0, 61); (284, 0, 92); (287, 0, 92); (288, 0, 92); (295, 0, 92); (304, 0, 92); (305, 0, 92); (306, 0, 92); (311, 0, 92); (312, 0, 61); (313, 0, 92); (314, 0, 92); (333, 0, 7); (334, 0, 92); (335, 0, 92); (336, 0, 92); (337, 0, 7); (338, 0, 92); (339, 0, 92); (346, 0, 7); (347, 0, 92); (348, 0, 7); (349, 0, 7); (350, 0, 7); (351, 0, 46); (360, 0, 92); (372, 0, 92); (373, 0, 92); (380, 0, 92); (381, 0, 92); (382, 0, 92); (383, 0, 92); (385, 0, 92); (386, 0, 92); (387, 0, 92); (388, 0, 92); (389, 0, 92); (390, 0, 92); (391, 0, 92); (392, 0, 92); (393, 0, 92); (394, 0, 92); (395, 0, 92); (396, 0, 92); (397, 0, 92); (398, 0, 92); (399, 0, 92); (400, 0, 92); (401, 0, 92); (402, 0, 92); (403, 0, 92); (404, 0, 92); (405, 0, 92); (406, 0, 92); (407, 0, 7); (408, 0, 7); (409, 0, 7); (410, 0, 7); (411, 0, 92); (412, 0, 92); (413, 0, 92); (414, 0, 92); (497, 0, 94); (498, 0, 43); (600, 0, 7); (601, 0, 7); (602, 0, 7); (603, 0, 7); (604, 0, 7); (605, 0, 7); (606, 0, 7); (607, 0, 7); (608, 0, 7); (609, 0, 7); (610, 0, 7); (611, 0, 7); (612, 0, 7); (613, 0, 7); (614, 0, 7); (615, 0, 7); (616, 0, 7); (617, 0, 7); (618, 0, 7); (619, 0, 7); (620, 0, 7); (621, 0, 7); (622, 0, 7); (623, 0, 7); (624, 0, 7); (625, 0, 7); (626, 0, 7); (627, 0, 7); (628, 0, 7); (629, 0, 7); (630, 0, 7); (631, 0, 7); (632, 0, 7); (633, 0, 7); (634, 0, 7)];
  [];
  [(405, 2, 49); (657, 2, 58)];

  [(10, 0, 44); (11, 0, 44); (67, 0, 44); (68, 0, 44); (69, 0, 44); (93, 0, 49); (94, 0, 49); (112, 0, 44); (113, 0, 49); (114, 0, 49); (115, 0, 45); (116, 0, 45); (195, 0, 49); (196, 0, 49); (197, 0, 49); (200, 0, 49); (207, 0, 65); (212, 0, 49); (213, 0, 49); (214, 0, 49); (215, 0, 49); (216, 0, 49); (217, 0, 49); (218, 0, 49); (219, 0, 49); (220, 0, 49); (221, 0, 49); (222, 0, 49); (223, 0, 49); (224, 0, 49); (225, 0, 49); (226, 0, 49); (227, 0, 49); (228, 0, 49); (229, 0, 49); (230, 0, 49); (231, 0, 49); (232, 0, 49); (233, 0, 49); (234, 0, 49); (235, 0, 49); (236, 0, 49); (237, 0, 49); (238, 0, 49); (239, 0, 49); (240, 0, 49); (241, 0, 49); (242, 0, 49); (243, 0, 49); (244, 0, 49); (245, 0, 49); (246, 0, 49); (247, 0, 49); (284, 0, 49); (287, 0, 49); (288, 0, 49); (295, 0, 49); (304, 0, 49); (305, 0, 49); (306, 0, 49); (311, 0, 49); (312, 0, 49); (313, 0, 49); (314, 0, 49); (333, 0, 50); (334, 0, 49); (335, 0, 49); (336, 0, 49); (337, 0, 50); (338, 0, 49); (339, 0, 49); (346, 0, 50); (347, 0, 49); (348, 0, 50); (349, 0, 50); (350, 0, 50); (350, 2, 50); (351, 0, 46); (360, 0, 49); (372, 0, 49); (373, 0, 49); (380, 0, 49); (381, 0, 49); (382, 0, 49); (383, 0, 49); (385, 0, 49); (386, 0, 49); (387, 0, 49); (388, 0, 49); (389, 0, 49); (390, 0, 49); (391, 0, 49); (392, 0, 49); (393, 0, 49); (394, 0, 49); (395, 0, 49); (396, 0, 49); (397, 0, 49); (398, 0, 49); (399, 0, 49); (400, 0, 49); (401, 0, 49); (402, 0, 49); (403, 0, 49); (404, 0, 49); (405, 0, 49); (406, 0, 49); (407, 0, 50); (408, 0, 50); (409, 0, 50); (410, 0, 50); (411, 0, 49); (412, 0, 49); (413, 0, 49); (414, 0, 49); (497, 0, 63); (498, 0, 43)];

  [(10, 0, 44); (11, 0, 44); (67, 0, 44); (68, 0, 44); (69, 0, 44); (93, 0, 49); (94, 0, 49); (112, 0, 44); (113, 0, 49); (114, 0, 49); (115, 0, 45); (116, 0, 45); (195, 0, 49); (196, 0, 49); (197, 0, 49); (200, 0, 49); (207, 0, 65); (212, 0, 49); (213, 0, 49); (214, 0, 49); (215, 0, 49); (216, 0, 49); (217, 0, 49); (218, 0, 49); (219, 0, 49); (220, 0, 49); (221, 0, 49); (222, 0, 49); (223, 0, 49); (224, 0, 49); (225, 0, 49); (226, 0, 49); (227, 0, 49); (228, 0, 49); (229, 0, 49); (230, 0, 49); (231, 0, 49); (232, 0, 49); (233, 0, 49); (234, 0, 49); (235, 0, 49); (236, 0, 49); (237, 0, 49); (238, 0, 49); (239, 0, 49); (240, 0, 49); (241, 0, 49); (242, 0, 49); (243, 0, 49); (244, 0, 49); (245, 0, 49); (246, 0, 49); (247, 0, 49); (284, 0, 49); (287, 0, 49); (288, 0, 49); (295, 0, 49); (304, 0, 49); (305, 0, 49); (306, 0, 49); (311, 0, 49); (312, 0, 49); (313, 0, 49); (314, 0, 49); (333, 0, 50); (334, 0, 49); (335, 0, 49); (336, 0, 49); (337, 0, 50); (338, 0, 49); (339, 0, 49); (346, 0, 50); (347, 0, 49); (348, 0, 50); (349, 0, 50); (349, 2, 50); (350, 0, 50); (351, 0, 46); (360, 0, 49); (372, 0, 49); (373, 0, 49); (380, 0, 49); (381, 0, 49); (382, 0, 49); (383, 0, 49); (385, 0, 49); (386, 0, 49); (387, 0, 49); (388, 0, 49); (389, 0, 49); (390, 0, 49); (391, 0, 49); (392, 0, 49); (393, 0, 49); (394, 0, 49); (395, 0, 49); (396, 0, 49); (397, 0, 49); (398, 0, 49); (399, 0, 49); (400, 0, 49); (401, 0, 49); (402, 0, 49); (403, 0, 49); (404, 0, 49); (405, 0, 49); (406, 0, 49); (407, 0, 50); (408, 0, 50); (409, 0, 50); (410, 0, 50); (411, 0, 49); (412, 0, 49); (413, 0, 49); (414, 0, 49); (497, 0, 63); (498, 0, 43)];
  [(348, 2, 50); (405, 1, 49); (415, 0, 49)];
  [(24, 0, 48); (25, 0, 48); (26, 0, 48); (27, 0, 48); (94, 2, 49); (207, 2, 65); (497, 0, 65)];

  [(10, 0, 44); (11, 0, 44); (67, 0, 44); (68, 0, 44); (69, 0, 44); (93, 0, 49); (94, 0, 49); (112, 0, 44); (113, 0, 49); (114, 0, 49); (115, 0, 45); (116, 0, 45); (195, 0, 49); (196, 0, 49); (197, 0, 49); (200, 0, 49); (207, 0, 65); (212, 0, 49); (213, 0, 49); (214, 0, 49); (215, 0, 49); (216, 0, 49); (217, 0, 49); (218, 0, 49); (219, 0, 49); (220, 0, 49); (221, 0, 49); (222, 0, 49); (223, 0, 49); (224, 0, 49); (225, 0, 49); (226, 0, 49); (227, 0, 49); (228, 0, 49); (229, 0, 49); (230, 0, 49); (231, 0, 49); (232, 0, 49); (233, 0, 49); (234, 0, 49); (235, 0, 49); (236, 0, 49); (237, 0, 49); (238, 0, 49); (239, 0, 49); (240, 0, 49); (241, 0, 49); (242, 0, 49); (243, 0, 49); (244, 0, 49); (245, 0, 49); (246, 0, 49); (247, 0, 49); (284, 0, 49); (287, 0, 49); (288, 0, 49); (295, 0, 49); (304, 0, 49); (305, 0, 49); (306, 0, 49); (311, 0, 49); (312, 0, 49); (313, 0, 49); (314, 0, 49); (333, 0, 50); (334, 0, 49); (335, 0, 49); (336, 0, 49); (337, 0, 50); (338, 0, 49); (339, 0, 49); (346, 0, 50); (346, 2, 50); (347, 0, 49); (348, 0, 50); (349, 0, 50); (350, 0, 50); (351, 0, 46); (360, 0, 49); (372, 0, 49); (373, 0, 49); (380, 0, 49); (381, 0, 49); (382, 0, 49); (383, 0, 49); (385, 0, 49); (386, 0, 49); (387, 0, 49); (388, 0, 49); (389, 0, 49); (390, 0, 49); (391, 0, 49); (392, 0, 49); (393, 0, 49); (394, 0, 49); (395, 0, 49); (396, 0, 49); (397, 0, 49); (398, 0, 49); (399, 0, 49); (400, 0, 49); (401, 0, 49); (402, 0, 49); (403, 0, 49); (404, 0, 49); (405, 0, 49); (406, 0, 49); (407, 0, 50); (408, 0, 50); (409, 0, 50); (410, 0, 50); (411, 0, 49); (412, 0, 49); (413, 0, 49); (414, 0, 49); (497, 0, 63); (498, 0, 43)];
  [(85, 2, 15); (497, 0, 15)];
  [(100, 3, 34); (405, 1, 39); (415, 0, 39)];

  [(117, 0, 45); (118, 0, 45); (198, 0, 34); (199, 0, 34); (201, 0, 34); (208, 0, 45); (210, 3, 34); (249, 0, 34); (250, 0, 34); (251, 0, 34); (252, 0, 34); (253, 0, 34); (254, 0, 34); (255, 0, 34); (257, 0, 34); (258, 0, 34); (259, 0, 34); (260, 0, 34); (261, 0, 34); (264, 0, 34); (265, 0, 34); (268, 0, 34); (270, 0, 34); (272, 0, 34); (273, 0, 34); (274, 0, 34); (275, 0, 34); (285, 0, 34); (286, 0, 34); (293, 0, 34); (294, 0, 34); (374, 0, 34); (384, 0, 34); (499, 0, 95)];
  [(69, 2, 44)];
  [(361, 1, 31); (363, 0, 7); (364, 0, 7); (365, 0, 8); (366, 0, 8); (367, 0, 8); (368, 0, 8); (369, 0, 8); (371, 0, 8); (498, 0, 9)];
  [(180, 2, 31)];
  [(306, 3, 49); (307, 0, 30); (308, 0, 30); (309, 0, 30); (310, 0, 30); (498, 0, 61)];
  [(344, 1, 30)];
  [(339, 3, 49)];
  [(340, 1, 7)];
  [(341, 1, 7); (342, 1, 7); (343, 1, 7); (345, 1, 30)];

  [(10, 0, 44); (11, 0, 44); (67, 0, 44); (68, 0, 44); (69, 0, 44); (93, 0, 66); (94, 0, 66); (112, 0, 44); (113, 0, 66); (114, 0, 66); (115, 0, 45); (116, 0, 45); (195, 0, 66); (196, 0, 66); (197, 0, 66); (200, 0, 66); (207, 0, 96); (212, 0, 66); (213, 0, 66); (214, 0, 66); (215, 0, 66); (216, 0, 66); (217, 0, 66); (218, 0, 66); (219, 0, 66); (220, 0, 66); (221, 0, 66); (222, 0, 66); (223, 0, 66); (224, 0, 66); (225, 0, 66); (226, 0, 66); (227, 0, 66); (228, 0, 66); (229, 0, 66); (230, 0, 66); (231, 0, 66); (232, 0, 66); (233, 0, 66); (234, 0, 66); (235, 0, 66); (236, 0, 66); (237, 0, 66); (238, 0, 66); (239, 0, 66); (240, 0, 66); (241, 0, 66); (242, 0, 66); (243, 0, 66); (244, 0, 66); (245, 0, 66); (246, 0, 66); (247, 0, 66); (248, 1, 30); (284, 0, 66); (287, 0, 66); (288, 0, 66); (295, 0, 66); (304, 0, 66); (305, 0, 66); (306, 0, 66); (311, 0, 66); (312, 0, 66); (313, 0, 66); (314, 0, 66); (333, 0, 30); (334, 0, 66); (335, 0, 66); (336, 0, 66); (337, 0, 30); (338, 0, 66); (339, 0, 66); (346, 0, 30); (347, 0, 66); (348, 0, 30); (349, 0, 30); (350, 0, 30); (351, 0, 46); (360, 0, 66); (372, 0, 66); (373, 0, 66); (380, 0, 66); (381, 0, 66); (382, 0, 66); (383, 0, 66); (385, 0, 66); (386, 0, 66); (387, 0, 66); (388, 0, 66); (389, 0, 66); (390, 0, 66); (391, 0, 66); (392, 0, 66); (393, 0, 66); (394, 0, 66); (395, 0, 66); (396, 0, 66); (397, 0, 66); (398, 0, 66); (399, 0, 66); (400, 0, 66); (401, 0, 66); (402, 0, 66); (403, 0, 66); (404, 0, 66); (405, 0, 66); (406, 0, 66); (407, 0, 30); (408, 0, 30); (409, 0, 30); (410, 0, 30); (411, 0, 66); (412, 0, 66); (413, 0, 66); (414, 0, 66); (497, 0, 97); (498, 0, 43)];
  [(299, 1, 7); (492, 0, 7); (493, 0, 7)];
  [(303, 1, 30)];
  [(295, 3, 49)];
  [(296, 1, 7); (297, 1, 7); (298, 1, 7); (301, 1, 30)];
  [(300, 1, 30)];
  [(291, 1, 30); (292, 1, 30); (302, 1, 30)];
  [];
  [(114, 3, 49)];
  [(8, 1, 49)];
  [(9, 1, 49)];
  [(288, 3, 49); (290, 1, 30)];
  [(289, 1, 30)];
  [(291, 1, 30); (292, 1, 30)];
  [(333, 3, 50); (405, 1, 49); (415, 0, 49)];
  [(334, 3, 49)];

  [(10, 0, 44); (11, 0, 44); (67, 0, 44); (68, 0, 44); (69, 0, 44); (93, 0, 49); (94, 0, 49); (112, 0, 44); (113, 0, 49); (114, 0, 49); (115, 0, 45); (116, 0, 45); (195, 0, 49); (196, 0, 49); (197, 0, 49); (200, 0, 49); (207, 0, 65); (212, 0, 49); (213, 0, 49); (214, 0, 49); (215, 0, 49); (216, 0, 49); (217, 0, 49); (218, 0, 49); (219, 0, 49); (220, 0, 49); (221, 0, 49); (222, 0, 49); (223, 0, 49); (224, 0, 49); (225, 0, 49); (226, 0, 49); (227, 0, 49); (228, 0, 49); (229, 0, 49); (230, 0, 49); (231, 0, 49); (232, 0, 49); (233, 0, 49); (234, 0, 49); (235, 0, 49); (236, 0, 49); (237, 0, 49); (238, 0, 49); (239, 0, 49); (240, 0, 49); (241, 0, 49); (242, 0, 49); (243, 0, 49); (244, 0, 49); (245, 0, 49); (246, 0, 49); (247, 0, 49); (248, 1, 50); (284, 0, 49); (287, 0, 49); (288, 0, 49); (295, 0, 49); (304, 0, 49); (305, 0, 49); (306, 0, 49); (311, 0, 49); (312, 0, 49); (313, 0, 49); (314, 0, 49); (333, 0, 50); (334, 0, 49); (335, 0, 49); (336, 0, 49); (337, 0, 50); (338, 0, 49); (339, 0, 49); (346, 0, 50); (346, 1, 50); (347, 0, 49); (348, 0, 50); (349, 0, 50); (350, 0, 50); (351, 0, 46); (360, 0, 49); (372, 0, 49); (373, 0, 49); (380, 0, 49); (381, 0, 49); (382, 0, 49); (383, 0, 49); (385, 0, 49); (386, 0, 49); (387, 0, 49); (388, 0, 49); (389, 0, 49); (390, 0, 49); (391, 0, 49); (392, 0, 49); (393, 0, 49); (394, 0, 49); (395, 0, 49); (396, 0, 49); (397, 0, 49); (398, 0, 49); (399, 0, 49); (400, 0, 49); (401, 0, 49); (402, 0, 49); (403, 0, 49); (404, 0, 49); (405, 0, 49); (406, 0, 49); (407, 0, 50); (408, 0, 50); (409, 0, 50); (410, 0, 50); (411, 0, 49); (412, 0, 49); (413, 0, 49); (414, 0, 49); (497, 0, 63); (498, 0, 43)];
  [(470, 2, 68)];
  [(332, 1, 30)];
  [(320, 1, 7); (321, 1, 7); (322, 1, 7); (323, 1, 7); (492, 0, 30); (493, 0, 30)];
  [(313, 3, 49)];
  [(326, 1, 30); (327, 1, 30); (328, 1, 30); (405, 1, 69); (415, 0, 69)];
  [(329, 1, 30); (330, 1, 30); (331, 1, 30)];
  [(314, 3, 49)];
  [(315, 1, 7); (316, 1, 7); (317, 1, 7); (318, 1, 7); (319, 1, 7); (325, 1, 30)];
  [(324, 1, 30)];
  [(293, 1, 98)];
  [(294, 1, 98)];
  [(458, 1, 30); (643, 1, 99)];
  [(452, 1, 30); (637, 1, 99)];
  [(453, 1, 30); (638, 1, 99)];
  [(454, 1, 30); (639, 1, 99)];
  [(384, 1, 98)];
  [(423, 1, 100); (433, 0, 100)];
  [];
  [(122, 1, 74)];

  [(10, 0, 44); (11, 0, 44); (67, 0, 44); (68, 0, 44); (69, 0, 44); (93, 0, 101); (94, 0, 101); (112, 0, 44); (113, 0, 101); (114, 0, 101); (115, 0, 45); (116, 0, 45); (140, 1, 74); (142, 1, 74); (195, 0, 101); (196, 0, 101); (197, 0, 101); (200, 0, 101); (207, 0, 103); (212, 0, 101); (213, 0, 101); (214, 0, 101); (215, 0, 101); (216, 0, 101); (217, 0, 101); (218, 0, 101); (219, 0, 101); (220, 0, 101); (221, 0, 101); (222, 0, 101); (223, 0, 101); (224, 0, 101); (225, 0, 101); (226, 0, 101); (227, 0, 101); (228, 0, 101); (229, 0, 101); (230, 0, 101); (231, 0, 101); (232, 0, 101); (233, 0, 101); (234, 0, 101); (235, 0, 101); (236, 0, 101); (237, 0, 101); (238, 0, 101); (239, 0, 101); (240, 0, 101); (241, 0, 101); (242, 0, 101); (243, 0, 101); (244, 0, 101); (245, 0, 101); (246, 0, 101); (247, 0, 101); (284, 0, 101); (287, 0, 101); (288, 0, 101); (295, 0, 101); (304, 0, 101); (305, 0, 101); (306, 0, 101); (311, 0, 101); (312, 0, 101); (313, 0, 101); (314, 0, 101); (333, 0, 102); (334, 0, 101); (335, 0, 101); (336, 0, 101); (337, 0, 102); (338, 0, 101); (339, 0, 101); (346, 0, 102); (347, 0, 101); (348, 0, 102); (349, 0, 102); (350, 0, 102); (351, 0, 46); (360, 0, 101); (372, 0, 101); (373, 0, 101); (380, 0, 101); (381, 0, 101); (382, 0, 101); (383, 0, 101); (385, 0, 101); (386, 0, 101); (387, 0, 101); (388, 0, 101); (389, 0, 101); (390, 0, 101); (391, 0, 101); (392, 0, 101); (393, 0, 101); (394, 0, 101); (395, 0, 101); (396, 0, 101); (397, 0, 101); (398, 0, 101); (399, 0, 101); (400, 0, 101); (401, 0, 101); (402, 0, 101); (403, 0, 101); (404, 0, 101); (405, 0, 101); (406, 0, 101); (407, 0, 102); (408, 0, 102); (409, 0, 102); (410, 0, 102); (411, 0, 101); (412, 0, 101); (413, 0, 101); (414, 0, 101); (497, 0, 104); (498, 0, 43)];
  [(141, 1, 74)];
  [(286, 1, 98)];
  [(415, 0, 105); (472, 1, 105)];
  [(460, 1, 40)];
  [(467, 1, 85)];
  [];
  [(491, 1, 105)];
  [(285, 1, 98)];
  [(473, 1, 105); (474, 1, 105)];

  [(87, 1, 106); (88, 0, 7); (89, 0, 7); (90, 0, 7); (91, 0, 7); (92, 0, 7); (117, 0, 45); (118, 0, 45); (201, 0, 110); (208, 0, 45); (285, 0, 110); (286, 0, 110); (293, 0, 110); (294, 0, 110); (384, 0, 110); (422, 0, 30); (423, 0, 30); (424, 0, 107); (425, 0, 107); (426, 0, 79); (427, 0, 108); (428, 0, 108); (429, 0, 80); (430, 0, 108); (431, 0, 108); (432, 0, 81); (438, 0, 109); (439, 0, 109); (440, 0, 109); (441, 0, 109); (442, 0, 109); (443, 0, 109); (444, 0, 109); (446, 0, 109); (447, 0, 109); (448, 0, 109); (459, 0, 109); (460, 0, 40); (461, 0, 109); (462, 0, 83); (463, 0, 83); (466, 0, 85); (467, 0, 85); (470, 0, 109); (472, 0, 109); (473, 0, 109); (474, 0, 109); (491, 0, 109); (499, 0, 45); (635, 0, 110); (636, 0, 110); (637, 0, 110); (638, 0, 110); (639, 0, 110); (640, 0, 110); (641, 0, 110); (642, 0, 110); (643, 0, 110); (644, 0, 110); (645, 0, 110); (646, 0, 111)];

  [(117, 0, 45); (118, 0, 45); (201, 0, 116); (208, 0, 45); (285, 0, 116); (286, 0, 116); (293, 0, 116); (294, 0, 116); (384, 0, 116); (419, 0, 16); (420, 0, 16); (421, 0, 16); (422, 0, 112); (423, 0, 112); (424, 0, 113); (425, 0, 113); (426, 0, 79); (427, 0, 114); (428, 0, 114); (429, 0, 80); (430, 0, 114); (431, 0, 114); (432, 0, 81); (438, 0, 115); (439, 0, 115); (439, 1, 105); (440, 0, 115); (441, 0, 115); (442, 0, 115); (443, 0, 115); (444, 0, 115); (446, 0, 115); (447, 0, 115); (448, 0, 115); (459, 0, 115); (460, 0, 40); (461, 0, 115); (462, 0, 83); (463, 0, 83); (466, 0, 85); (467, 0, 85); (470, 0, 115); (472, 0, 115); (473, 0, 115); (474, 0, 115); (491, 0, 115); (499, 0, 45); (635, 0, 116); (636, 0, 116); (637, 0, 116); (638, 0, 116); (639, 0, 116); (640, 0, 116); (641, 0, 116); (642, 0, 116); (643, 0, 116); (644, 0, 116); (645, 0, 116); (646, 0, 117)];
  [(640, 1, 99)];
  [(130, 1, 74); (131, 1, 74)];
  [(201, 1, 118)];
  [(417, 1, 74)];
  [(119, 1, 74)];
  [(120, 1, 74)];
  [(121, 1, 74)];
  [(456, 1, 30); (641, 1, 99)];
  [(199, 1, 119); (645, 1, 99)];
  [(117, 1, 45)];
  [];
  [(449, 1, 30); (635, 1, 99)];
  [(457, 1, 30); (642, 1, 99)];
  [(451, 1, 30); (636, 1, 99)];
  [(415, 2, 73); (492, 0, 16); (493, 0, 16)];
  [(416, 1, 74)];
  [(418, 1, 74)];
  [(419, 1, 120); (420, 1, 120); (421, 1, 120)];
  [(422, 1, 100); (426, 1, 79)];
  [(425, 1, 121); (434, 0, 122); (435, 0, 122)];
  [(424, 1, 121); (429, 1, 80)];
  [(428, 1, 123); (436, 0, 122); (437, 0, 122)];
  [(427, 1, 123)];
  [(431, 1, 123); (433, 0, 123)];
  [(430, 1, 123); (432, 1, 81)];
  [(438, 1, 105)];
  [(440, 1, 105); (466, 1, 85)];
  [(441, 1, 105)];

  [(10, 0, 44); (11, 0, 44); (67, 0, 44); (68, 0, 44); (69, 0, 44); (93, 0, 124); (94, 0, 124); (112, 0, 44); (113, 0, 124); (114, 0, 124); (115, 0, 45); (116, 0, 45); (195, 0, 124); (196, 0, 124); (197, 0, 124); (200, 0, 124); (207, 0, 125); (212, 0, 124); (213, 0, 124); (214, 0, 124); (215, 0, 124); (216, 0, 124); (217, 0, 124); (218, 0, 124); (219, 0, 124); (220, 0, 124); (221, 0, 124); (222, 0, 124); (223, 0, 124); (224, 0, 124); (225, 0, 124); (226, 0, 124); (227, 0, 124); (228, 0, 124); (229, 0, 124); (230, 0, 124); (231, 0, 124); (232, 0, 124); (233, 0, 124); (234, 0, 124); (235, 0, 124); (236, 0, 124); (237, 0, 124); (238, 0, 124); (239, 0, 124); (240, 0, 124); (241, 0, 124); (242, 0, 124); (243, 0, 124); (244, 0, 124); (245, 0, 124); (246, 0, 124); (247, 0, 124); (284, 0, 124); (287, 0, 124); (288, 0, 124); (295, 0, 124); (304, 0, 124); (305, 0, 124); (306, 0, 124); (311, 0, 124); (312, 0, 124); (313, 0, 124); (314, 0, 124); (333, 0, 105); (334, 0, 124); (335, 0, 124); (336, 0, 124); (337, 0, 105); (338, 0, 124); (339, 0, 124); (346, 0, 105); (347, 0, 124); (348, 0, 105); (349, 0, 105); (350, 0, 105); (351, 0, 46); (360, 0, 124); (372, 0, 124); (373, 0, 124); (380, 0, 124); (381, 0, 124); (382, 0, 124); (383, 0, 124); (385, 0, 124); (386, 0, 124); (387, 0, 124); (388, 0, 124); (389, 0, 124); (390, 0, 124); (391, 0, 124); (392, 0, 124); (393, 0, 124); (394, 0, 124); (395, 0, 124); (396, 0, 124); (397, 0, 124); (398, 0, 124); (399, 0, 124); (400, 0, 124); (401, 0, 124); (402, 0, 124); (403, 0, 124); (404, 0, 124); (405, 0, 124); (406, 0, 124); (407, 0, 105); (408, 0, 105); (409, 0, 105); (410, 0, 105); (411, 0, 124); (412, 0, 124); (413, 0, 124); (414, 0, 124); (459, 1, 105); (497, 0, 126); (498, 0, 43)];
  [(442, 1, 105)];
  [(461, 1, 105)];
  [(462, 1, 83); (463, 1, 83)];
  [(444, 1, 105)];
  [];
  [(443, 1, 105)];
  [(446, 1, 105)];
  [(447, 1, 105)];
  [(448, 1, 105)];
  [(118, 1, 45); (198, 1, 127); (644, 1, 99)];
  [(208, 1, 45)];

  [(10, 0, 44); (11, 0, 44); (67, 0, 44); (68, 0, 44); (69, 0, 44); (93, 0, 49); (94, 0, 49); (112, 0, 44); (113, 0, 49); (114, 0, 49); (115, 0, 45); (116, 0, 45); (195, 0, 49); (196, 0, 49); (197, 0, 49); (200, 0, 49); (207, 0, 65); (212, 0, 49); (213, 0, 49); (214, 0, 49); (215, 0, 49); (216, 0, 49); (217, 0, 49); (218, 0, 49); (219, 0, 49); (220, 0, 49); (221, 0, 49); (222, 0, 49); (223, 0, 49); (224, 0, 49); (225, 0, 49); (226, 0, 49); (227, 0, 49); (228, 0, 49); (229, 0, 49); (230, 0, 49); (231, 0, 49); (232, 0, 49); (233, 0, 49); (234, 0, 49); (235, 0, 49); (236, 0, 49); (237, 0, 49); (238, 0, 49); (239, 0, 49); (240, 0, 49); (241, 0, 49); (242, 0, 49); (243, 0, 49); (244, 0, 49); (245, 0, 49); (246, 0, 49); (247, 0, 49); (248, 0, 50); (284, 0, 49); (287, 0, 49); (288, 0, 49); (295, 0, 49); (304, 0, 49); (305, 0, 49); (306, 0, 49); (311, 0, 49); (312, 0, 49); (313, 0, 49); (314, 0, 49); (333, 0, 50); (334, 0, 49); (335, 0, 49); (336, 0, 49); (337, 0, 50); (338, 0, 49); (339, 0, 49); (346, 0, 50); (347, 0, 49); (348, 0, 50); (349, 0, 50); (350, 0, 50); (351, 0, 46); (360, 0, 49); (372, 0, 49); (373, 0, 49); (380, 0, 49); (381, 0, 49); (382, 0, 49); (383, 0, 49); (385, 0, 49); (386, 0, 49); (387, 0, 49); (388, 0, 49); (389, 0, 49); (390, 0, 49); (391, 0, 49); (392, 0, 49); (393, 0, 49); (394, 0, 49); (395, 0, 49); (396, 0, 49); (397, 0, 49); (398, 0, 49); (399, 0, 49); (400, 0, 49); (401, 0, 49); (402, 0, 49); (403, 0, 49); (404, 0, 49); (405, 0, 49); (406, 0, 49); (407, 0, 50); (408, 0, 50); (409, 0, 50); (409, 3, 50); (410, 0, 50); (411, 0, 49); (412, 0, 49); (413, 0, 49); (413, 3, 49); (414, 0, 49); (497, 0, 63); (498, 0, 67)];

  [(10, 0, 44); (11, 0, 44); (67, 0, 44); (68, 0, 44); (69, 0, 44); (93, 0, 49); (94, 0, 49); (112, 0, 44); (113, 0, 49); (114, 0, 49); (115, 0, 45); (116, 0, 45); (195, 0, 49); (196, 0, 49); (197, 0, 49); (200, 0, 49); (207, 0, 65); (212, 0, 49); (213, 0, 49); (214, 0, 49); (215, 0, 49); (216, 0, 49); (217, 0, 49); (218, 0, 49); (219, 0, 49); (220, 0, 49); (221, 0, 49); (222, 0, 49); (223, 0, 49); (224, 0, 49); (225, 0, 49); (226, 0, 49); (227, 0, 49); (228, 0, 49); (229, 0, 49); (230, 0, 49); (231, 0, 49); (232, 0, 49); (233, 0, 49); (234, 0, 49); (235, 0, 49); (236, 0, 49); (237, 0, 49); (238, 0, 49); (239, 0, 49); (240, 0, 49); (241, 0, 49); (242, 0, 49); (243, 0, 49); (244, 0, 49); (245, 0, 49); (246, 0, 49); (247, 0, 49); (248, 0, 50); (284, 0, 49); (287, 0, 49); (288, 0, 49); (295, 0, 49); (304, 0, 49); (305, 0, 49); (306, 0, 49); (311, 0, 49); (312, 0, 49); (313, 0, 49); (314, 0, 49); (333, 0, 50); (334, 0, 49); (335, 0, 49); (336, 0, 49); (337, 0, 50); (338, 0, 49); (339, 0, 49); (346, 0, 50); (347, 0, 49); (348, 0, 50); (349, 0, 50); (350, 0, 50); (351, 0, 46); (360, 0, 49); (372, 0, 49); (373, 0, 49); (380, 0, 49); (381, 0, 49); (382, 0, 49); (383, 0, 49); (385, 0, 49); (386, 0, 49); (387, 0, 49); (388, 0, 49); (389, 0, 49); (390, 0, 49); (391, 0, 49); (392, 0, 49); (393, 0, 49); (394, 0, 49); (395, 0, 49); (396, 0, 49); (397, 0, 49); (398, 0, 49); (399, 0, 49); (400, 0, 49); (401, 0, 49); (402, 0, 49); (403, 0, 49); (404, 0, 49); (405, 0, 49); (406, 0, 49); (407, 0, 50); (408, 0, 50); (409, 0, 50); (410, 0, 50); (410, 3, 50); (411, 0, 49); (412, 0, 49); (413, 0, 49); (414, 0, 49); (414, 3, 49); (497, 0, 63); (498, 0, 67)];
  [(337, 3, 50); (405, 1, 49); (415, 0, 49)];
  [(338, 3, 49)];
  [(335, 3, 49)];
  [(336, 3, 49)];

  [(10, 0, 44); (11, 0, 44); (67, 0, 44); (68, 0, 44); (69, 0, 44); (93, 0, 49); (94, 0, 49); (112, 0, 44); (113, 0, 49); (114, 0, 49); (115, 0, 45); (116, 0, 45); (195, 0, 49); (196, 0, 49); (197, 0, 49); (200, 0, 49); (207, 0, 65); (212, 0, 49); (213, 0, 49); (214, 0, 49); (215, 0, 49); (216, 0, 49); (217, 0, 49); (218, 0, 49); (219, 0, 49); (220, 0, 49); (221, 0, 49); (222, 0, 49); (223, 0, 49); (224, 0, 49); (225, 0, 49); (226, 0, 49); (227, 0, 49); (228, 0, 49); (229, 0, 49); (230, 0, 49); (231, 0, 49); (232, 0, 49); (233, 0, 49); (234, 0, 49); (235, 0, 49); (236, 0, 49); (237, 0, 49); (238, 0, 49); (239, 0, 49); (240, 0, 49); (241, 0, 49); (242, 0, 49); (243, 0, 49); (244, 0, 49); (245, 0, 49); (246, 0, 49); (247, 0, 49); (248, 0, 50); (284, 0, 49); (287, 0, 49); (288, 0, 49); (295, 0, 49); (304, 0, 49); (305, 0, 49); (306, 0, 49); (311, 0, 49); (312, 0, 49); (313, 0, 49); (314, 0, 49); (333, 0, 50); (334, 0, 49); (335, 0, 49); (336, 0, 49); (337, 0, 50); (338, 0, 49); (339, 0, 49); (346, 0, 50); (347, 0, 49); (348, 0, 50); (349, 0, 50); (350, 0, 50); (351, 0, 46); (360, 0, 49); (372, 0, 49); (373, 0, 49); (380, 0, 49); (381, 0, 49); (382, 0, 49); (383, 0, 49); (385, 0, 49); (386, 0, 49); (387, 0, 49); (388, 0, 49); (389, 0, 49); (390, 0, 49); (391, 0, 49); (392, 0, 49); (393, 0, 49); (394, 0, 49); (395, 0, 49); (396, 0, 49); (397, 0, 49); (398, 0, 49); (399, 0, 49); (400, 0, 49); (401, 0, 49); (402, 0, 49); (403, 0, 49); (404, 0, 49); (405, 0, 49); (406, 0, 49); (407, 0, 50); (407, 3, 50); (408, 0, 50); (409, 0, 50); (410, 0, 50); (411, 0, 49); (411, 3, 49); (412, 0, 49); (413, 0, 49); (414, 0, 49); (497, 0, 63); (498, 0, 67)];

  [(10, 0, 44); (11, 0, 44); (67, 0, 44); (68, 0, 44); (69, 0, 44); (93, 0, 49); (94, 0, 49); (112, 0, 44); (113, 0, 49); (114, 0, 49); (115, 0, 45); (116, 0, 45); (195, 0, 49); (196, 0, 49); (197, 0, 49); (200, 0, 49); (207, 0, 65); (212, 0, 49); (213, 0, 49); (214, 0, 49); (215, 0, 49); (216, 0, 49); (217, 0, 49); (218, 0, 49); (219, 0, 49); (220, 0, 49); (221, 0, 49); (222, 0, 49); (223, 0, 49); (224, 0, 49); (225, 0, 49); (226, 0, 49); (227, 0, 49); (228, 0, 49); (229, 0, 49); (230, 0, 49); (231, 0, 49); (232, 0, 49); (233, 0, 49); (234, 0, 49); (235, 0, 49); (236, 0, 49); (237, 0, 49); (238, 0, 49); (239, 0, 49); (240, 0, 49); (241, 0, 49); (242, 0, 49); (243, 0, 49); (244, 0, 49); (245, 0, 49); (246, 0, 49); (247, 0, 49); (248, 0, 50); (284, 0, 49); (287, 0, 49); (288, 0, 49); (295, 0, 49); (304, 0, 49); (305, 0, 49); (306, 0, 49); (311, 0, 49); (312, 0, 49); (313, 0, 49); (314, 0, 49); (333, 0, 50); (334, 0, 49); (335, 0, 49); (336, 0, 49); (337, 0, 50); (338, 0, 49); (339, 0, 49); (346, 0, 50); (347, 0, 49); (348, 0, 50); (349, 0, 50); (350, 0, 50); (351, 0, 46); (360, 0, 49); (372, 0, 49); (373, 0, 49); (380, 0, 49); (381, 0, 49); (382, 0, 49); (383, 0, 49); (385, 0, 49); (386, 0, 49); (387, 0, 49); (388, 0, 49); (389, 0, 49); (390, 0, 49); (391, 0, 49); (392, 0, 49); (393, 0, 49); (394, 0, 49); (395, 0, 49); (396, 0, 49); (397, 0, 49); (398, 0, 49); (399, 0, 49); (400, 0, 49); (401, 0, 49); (402, 0, 49); (403, 0, 49); (404, 0, 49); (405, 0, 49); (406, 0, 49); (407, 0, 50); (408, 0, 50); (408, 3, 50); (409, 0, 50); (410, 0, 50); (411, 0, 49); (412, 0, 49); (412, 3, 49); (413, 0, 49); (414, 0, 49); (497, 0, 63); (498, 0, 67)];

  [(15, 2, 34); (16, 0, 30); (17, 0, 30); (18, 0, 30); (19, 0, 30); (20, 0, 30); (21, 0, 30); (22, 0, 30); (23, 0, 30); (28, 0, 30); (29, 0, 128); (30, 0, 128); (37, 0, 30); (41, 0, 30); (42, 0, 30); (46, 0, 30); (50, 0, 30)];
  [(9, 2, 87); (69, 2, 44)];
  [(103, 3, 38)];

  [(6, 0, 56); (8, 0, 56); (9, 0, 56); (10, 0, 60); (11, 0, 60); (67, 0, 44); (68, 0, 44); (69, 0, 44); (93, 0, 58); (94, 0, 58); (105, 2, 30); (106, 0, 30); (107, 0, 30); (108, 0, 56); (109, 0, 56); (110, 0, 56); (111, 0, 56); (112, 0, 44); (113, 0, 58); (114, 0, 58); (184, 0, 56); (185, 0, 56); (186, 0, 56); (207, 0, 58); (217, 0, 58); (218, 0, 58); (219, 0, 58); (220, 0, 58); (221, 0, 58); (222, 0, 58); (223, 0, 58); (224, 0, 58); (225, 0, 58); (226, 0, 58); (227, 0, 58); (228, 0, 58); (229, 0, 58); (230, 0, 58); (231, 0, 58); (232, 0, 58); (233, 0, 58); (234, 0, 58); (235, 0, 58); (236, 0, 58); (237, 0, 58); (238, 0, 58); (239, 0, 58); (240, 0, 58); (241, 0, 58); (242, 0, 58); (243, 0, 58); (244, 0, 58); (245, 0, 58); (246, 0, 58); (247, 0, 58); (284, 0, 58); (287, 0, 58); (288, 0, 58); (295, 0, 58); (304, 0, 58); (305, 0, 58); (306, 0, 58); (311, 0, 58); (312, 0, 58); (313, 0, 58); (314, 0, 58); (333, 0, 56); (334, 0, 58); (335, 0, 58); (336, 0, 58); (337, 0, 56); (338, 0, 58); (339, 0, 58); (346, 0, 56); (347, 0, 58); (348, 0, 56); (349, 0, 56); (350, 0, 56); (351, 0, 46); (360, 0, 58); (372, 0, 58); (373, 0, 58); (380, 0, 58); (381, 0, 58); (382, 0, 58); (383, 0, 58); (385, 0, 58); (386, 0, 58); (387, 0, 58); (388, 0, 58); (389, 0, 58); (390, 0, 58); (391, 0, 58); (392, 0, 58); (393, 0, 58); (394, 0, 58); (395, 0, 58); (396, 0, 58); (397, 0, 58); (398, 0, 58); (399, 0, 58); (400, 0, 58); (401, 0, 58); (402, 0, 58); (403, 0, 58); (404, 0, 58); (407, 0, 56); (408, 0, 56); (409, 0, 56); (410, 0, 56); (411, 0, 58); (412, 0, 58); (413, 0, 58); (414, 0, 58); (497, 0, 57); (498, 0, 43); (499, 0, 56); (646, 0, 59); (647, 0, 30); (648, 0, 30); (649, 0, 30); (650, 0, 58); (651, 0, 58); (652, 0, 58); (653, 0, 58); (654, 0, 58); (655, 0, 58); (656, 0, 61); (657, 0, 58); (658, 0, 58)];
  [(106, 2, 30); (184, 0, 30); (185, 0, 30); (186, 0, 30); (497, 0, 129); (499, 0, 30)];
  [(352, 2, 62)];
  [(357, 1, 91)];
  [(358, 1, 91)];
  [(356, 1, 91)];
  [(117, 0, 45); (118, 0, 45); (198, 0, 130); (199, 0, 130); (201, 0, 130); (208, 0, 45); (351, 3, 46); (354, 0, 130); (355, 0, 130); (499, 0, 131)];
  [(24, 1, 132)];
  [(25, 1, 132)];
  [(26, 1, 48)];
  [(27, 1, 48); (93, 3, 49)];
  [(86, 4, 34)];
  [(102, 4, 34)];
  [(99, 4, 34); (405, 1, 52); (415, 0, 52)];

  [(101, 4, 34); (117, 0, 45); (118, 0, 45); (198, 0, 34); (199, 0, 34); (201, 0, 34); (208, 0, 45); (249, 0, 34); (250, 0, 34); (251, 0, 34); (252, 0, 34); (253, 0, 34); (254, 0, 34); (255, 0, 34); (257, 0, 34); (258, 0, 34); (259, 0, 34); (260, 0, 34); (261, 0, 34); (264, 0, 34); (265, 0, 34); (268, 0, 34); (270, 0, 34); (272, 0, 34); (273, 0, 34); (274, 0, 34); (275, 0, 34); (285, 0, 34); (286, 0, 34); (293, 0, 34); (294, 0, 34); (374, 0, 34); (384, 0, 34); (499, 0, 95)];
  [(27, 1, 48); (113, 3, 49)];
  [(261, 1, 133)];
  [(253, 1, 133)];
  [(254, 1, 133)];
  [(255, 1, 133)];
  [];
  [];
  [(312, 1, 61)];
  [(272, 1, 133)];
  [];
  [(287, 1, 92); (288, 1, 92)];
  [(270, 1, 133)];
  [(273, 1, 133)];

  [(117, 0, 45); (118, 0, 45); (198, 0, 135); (199, 0, 134); (201, 0, 134); (208, 0, 45); (249, 0, 134); (250, 0, 134); (251, 0, 134); (252, 0, 134); (253, 0, 134); (254, 0, 134); (255, 0, 134); (257, 0, 134); (258, 0, 134); (259, 0, 134); (260, 0, 134); (261, 0, 134); (264, 0, 134); (265, 0, 134); (268, 0, 134); (268, 1, 133); (270, 0, 134); (272, 0, 134); (273, 0, 134); (274, 0, 134); (275, 0, 134); (282, 0, 134); (283, 0, 134); (285, 0, 134); (286, 0, 134); (293, 0, 134); (294, 0, 134); (374, 0, 134); (384, 0, 134); (499, 0, 136)];
  [(259, 1, 133)];
  [(497, 1, 94)];
  [(498, 1, 43)];
  [];
  [(233, 1, 61); (620, 1, 7)];
  [(257, 1, 133)];
  [(200, 3, 49)];
  [(202, 1, 7)];
  [(204, 1, 7); (405, 1, 92); (415, 0, 92)];
  [];
  [];
  [];
  [];
  [(249, 1, 133)];
  [(260, 1, 133)];
  [(250, 1, 133)];
  [(252, 1, 133)];
  [(118, 1, 45); (198, 1, 137); (264, 1, 133); (265, 1, 133)];
  [(69, 1, 44)];

  [(117, 0, 45); (118, 0, 45); (201, 0, 110); (208, 0, 45); (281, 1, 30); (285, 0, 110); (286, 0, 110); (293, 0, 110); (294, 0, 110); (384, 0, 110); (419, 0, 7); (420, 0, 7); (421, 0, 7); (422, 0, 30); (423, 0, 30); (424, 0, 107); (425, 0, 107); (426, 0, 79); (427, 0, 108); (428, 0, 108); (429, 0, 80); (430, 0, 108); (431, 0, 108); (432, 0, 81); (438, 0, 109); (439, 0, 109); (440, 0, 109); (441, 0, 109); (442, 0, 109); (443, 0, 109); (444, 0, 109); (446, 0, 109); (447, 0, 109); (448, 0, 109); (459, 0, 109); (460, 0, 40); (461, 0, 109); (462, 0, 83); (463, 0, 83); (466, 0, 85); (467, 0, 85); (470, 0, 109); (472, 0, 109); (473, 0, 109); (474, 0, 109); (491, 0, 109); (499, 0, 45); (635, 0, 110); (636, 0, 110); (637, 0, 110); (638, 0, 110); (639, 0, 110); (640, 0, 110); (641, 0, 110); (642, 0, 110); (643, 0, 110); (644, 0, 110); (645, 0, 110); (646, 0, 111)];
  [];
  [(350, 3, 50); (405, 1, 49); (415, 0, 49)];
  [(349, 3, 50); (405, 1, 49); (415, 0, 49)];
  [(27, 1, 48); (94, 3, 49)];
  [(207, 3, 65)];
  [(346, 3, 50); (405, 1, 49); (415, 0, 49)];
  [(69, 3, 44)];
  [(85, 3, 64)];

  [(100, 4, 34); (117, 0, 45); (118, 0, 45); (198, 0, 34); (199, 0, 34); (201, 0, 34); (208, 0, 45); (249, 0, 34); (250, 0, 34); (251, 0, 34); (252, 0, 34); (253, 0, 34); (254, 0, 34); (255, 0, 34); (257, 0, 34); (258, 0, 34); (259, 0, 34); (260, 0, 34); (261, 0, 34); (264, 0, 34); (265, 0, 34); (268, 0, 34); (270, 0, 34); (272, 0, 34); (273, 0, 34); (274, 0, 34); (275, 0, 34); (285, 0, 34); (286, 0, 34); (293, 0, 34); (294, 0, 34); (374, 0, 34); (384, 0, 34); (499, 0, 95)];
  [(251, 1, 133)];
  [];
  [(275, 1, 133)];
  [(258, 1, 133); (499, 1, 138)];
  [];
  [(274, 1, 133)];
  [(210, 4, 34)];
  [];
  [(208, 1, 45)];
  [(369, 1, 11)];
  [];
  [(361, 2, 31)];
  [(363, 0, 7); (363, 1, 7); (364, 0, 7); (364, 1, 7); (365, 0, 8); (366, 0, 8); (367, 0, 8); (368, 0, 8); (369, 0, 8); (371, 0, 8); (498, 0, 9)];
  [(365, 1, 8)];
  [(366, 1, 8)];
  [(367, 1, 8)];
  [(368, 1, 8); (371, 1, 8)];
  [(306, 4, 49); (308, 1, 30)];
  [(307, 1, 30)];
  [(309, 1, 30); (310, 1, 30)];
  [(339, 4, 49)];
  [(248, 0, 30); (342, 2, 7); (343, 2, 7); (345, 2, 30); (498, 0, 40)];
  [(248, 2, 50); (405, 1, 49); (415, 0, 49)];

  [(117, 0, 45); (118, 0, 45); (201, 0, 139); (208, 0, 45); (293, 0, 139); (294, 0, 139); (492, 1, 139); (494, 0, 139); (495, 0, 139); (499, 0, 45); (644, 0, 139); (645, 0, 139); (646, 0, 112)];
  [(299, 2, 7)];
  [(295, 4, 49)];
  [(291, 0, 30); (292, 0, 30); (297, 2, 7); (298, 2, 7); (301, 2, 30); (302, 0, 30); (303, 0, 30); (498, 0, 66)];

  [(117, 0, 45); (118, 0, 45); (198, 0, 16); (199, 0, 16); (201, 0, 16); (208, 0, 45); (291, 2, 30); (292, 2, 30); (293, 0, 16); (294, 0, 16); (499, 0, 140)];
  [(9, 2, 49)];
  [(288, 4, 49)];
  [(290, 2, 30); (291, 0, 30); (292, 0, 30); (498, 0, 61)];

  [(10, 0, 44); (11, 0, 44); (67, 0, 44); (68, 0, 44); (69, 0, 44); (93, 0, 66); (94, 0, 66); (112, 0, 44); (113, 0, 66); (114, 0, 66); (115, 0, 45); (116, 0, 45); (195, 0, 66); (196, 0, 66); (197, 0, 66); (200, 0, 66); (207, 0, 96); (212, 0, 66); (213, 0, 66); (214, 0, 66); (215, 0, 66); (216, 0, 66); (217, 0, 66); (218, 0, 66); (219, 0, 66); (220, 0, 66); (221, 0, 66); (222, 0, 66); (223, 0, 66); (224, 0, 66); (225, 0, 66); (226, 0, 66); (227, 0, 66); (228, 0, 66); (229, 0, 66); (230, 0, 66); (231, 0, 66); (232, 0, 66); (233, 0, 66); (234, 0, 66); (235, 0, 66); (236, 0, 66); (237, 0, 66); (238, 0, 66); (239, 0, 66); (240, 0, 66); (241, 0, 66); (242, 0, 66); (243, 0, 66); (244, 0, 66); (245, 0, 66); (246, 0, 66); (247, 0, 66); (284, 0, 66); (287, 0, 66); (288, 0, 66); (295, 0, 66); (304, 0, 66); (305, 0, 66); (306, 0, 66); (311, 0, 66); (312, 0, 66); (313, 0, 66); (314, 0, 66); (332, 2, 30); (333, 0, 30); (334, 0, 66); (335, 0, 66); (336, 0, 66); (337, 0, 30); (338, 0, 66); (339, 0, 66); (346, 0, 30); (347, 0, 66); (348, 0, 30); (349, 0, 30); (350, 0, 30); (351, 0, 46); (360, 0, 66); (372, 0, 66); (373, 0, 66); (380, 0, 66); (381, 0, 66); (382, 0, 66); (383, 0, 66); (385, 0, 66); (386, 0, 66); (387, 0, 66); (388, 0, 66); (389, 0, 66); (390, 0, 66); (391, 0, 66); (392, 0, 66); (393, 0, 66); (394, 0, 66); (395, 0, 66); (396, 0, 66); (397, 0, 66); (398, 0, 66); (399, 0, 66); (400, 0, 66); (401, 0, 66); (402, 0, 66); (403, 0, 66); (404, 0, 66); (405, 0, 66); (406, 0, 66); (407, 0, 30); (408, 0, 30); (409, 0, 30); (410, 0, 30); (411, 0, 66); (412, 0, 66); (413, 0, 66); (414, 0, 66); (497, 0, 97); (498, 0, 43)];
  [(320, 2, 7); (321, 2, 7); (322, 2, 7); (323, 2, 7)];

  [(117, 0, 45); (118, 0, 45); (198, 0, 30); (199, 0, 30); (201, 0, 30); (208, 0, 45); (285, 0, 30); (286, 0, 30); (293, 0, 30); (294, 0, 30); (328, 2, 30); (384, 0, 30); (449, 0, 30); (450, 0, 30); (451, 0, 30); (452, 0, 30); (453, 0, 30); (454, 0, 30); (455, 0, 30); (456, 0, 30); (457, 0, 30); (458, 0, 30); (499, 0, 129)];
  [(327, 2, 30)];

  [(117, 0, 45); (118, 0, 45); (198, 0, 30); (199, 0, 30); (201, 0, 30); (208, 0, 45); (285, 0, 30); (286, 0, 30); (293, 0, 30); (294, 0, 30); (331, 2, 30); (384, 0, 30); (449, 0, 30); (450, 0, 30); (451, 0, 30); (452, 0, 30); (453, 0, 30); (454, 0, 30); (455, 0, 30); (456, 0, 30); (457, 0, 30); (458, 0, 30); (499, 0, 129)];
  [(330, 2, 30)];
  [(314, 4, 49)];

  [(10, 0, 44); (11, 0, 44); (67, 0, 44); (68, 0, 44); (69, 0, 44); (93, 0, 69); (94, 0, 69); (112, 0, 44); (113, 0, 69); (114, 0, 69); (115, 0, 45); (116, 0, 45); (195, 0, 69); (196, 0, 69); (197, 0, 69); (200, 0, 69); (207, 0, 71); (212, 0, 69); (213, 0, 69); (214, 0, 69); (215, 0, 69); (216, 0, 69); (217, 0, 69); (218, 0, 69); (219, 0, 69); (220, 0, 69); (221, 0, 69); (222, 0, 69); (223, 0, 69); (224, 0, 69); (225, 0, 69); (226, 0, 69); (227, 0, 69); (228, 0, 69); (229, 0, 69); (230, 0, 69); (231, 0, 69); (232, 0, 69); (233, 0, 69); (234, 0, 69); (235, 0, 69); (236, 0, 69); (237, 0, 69); (238, 0, 69); (239, 0, 69); (240, 0, 69); (241, 0, 69); (242, 0, 69); (243, 0, 69); (244, 0, 69); (245, 0, 69); (246, 0, 69); (247, 0, 69); (248, 0, 70); (284, 0, 69); (287, 0, 69); (288, 0, 69); (295, 0, 69); (304, 0, 69); (305, 0, 69); (306, 0, 69); (311, 0, 69); (312, 0, 69); (313, 0, 69); (314, 0, 69); (316, 2, 7); (317, 2, 7); (318, 2, 7); (319, 2, 7); (325, 2, 30); (326, 0, 30); (327, 0, 30); (328, 0, 30); (329, 0, 30); (330, 0, 30); (331, 0, 30); (332, 0, 30); (333, 0, 70); (334, 0, 69); (335, 0, 69); (336, 0, 69); (337, 0, 70); (338, 0, 69); (339, 0, 69); (346, 0, 70); (347, 0, 69); (348, 0, 70); (349, 0, 70); (350, 0, 70); (351, 0, 46); (360, 0, 69); (372, 0, 69); (373, 0, 69); (380, 0, 69); (381, 0, 69); (382, 0, 69); (383, 0, 69); (385, 0, 69); (386, 0, 69); (387, 0, 69); (388, 0, 69); (389, 0, 69); (390, 0, 69); (391, 0, 69); (392, 0, 69); (393, 0, 69); (394, 0, 69); (395, 0, 69); (396, 0, 69); (397, 0, 69); (398, 0, 69); (399, 0, 69); (400, 0, 69); (401, 0, 69); (402, 0, 69); (403, 0, 69); (404, 0, 69); (405, 0, 69); (406, 0, 69); (407, 0, 70); (408, 0, 70); (409, 0, 70); (410, 0, 70); (411, 0, 69); (412, 0, 69); (413, 0, 69); (414, 0, 69); (497, 0, 72); (498, 0, 67)];

  [(117, 0, 45); (118, 0, 45); (201, 0, 141); (208, 0, 45); (285, 0, 141); (286, 0, 141); (293, 0, 141); (294, 0, 141); (384, 0, 141); (433, 1, 123); (438, 0, 123); (439, 0, 123); (440, 0, 123); (441, 0, 123); (442, 0, 123); (443, 0, 123); (444, 0, 123); (446, 0, 123); (447, 0, 123); (448, 0, 123); (459, 0, 123); (460, 0, 40); (461, 0, 123); (462, 0, 83); (463, 0, 83); (466, 0, 85); (467, 0, 85); (470, 0, 123); (472, 0, 123); (473, 0, 123); (474, 0, 123); (491, 0, 123); (499, 0, 45); (635, 0, 141); (636, 0, 141); (637, 0, 141); (638, 0, 141); (639, 0, 141); (640, 0, 141); (641, 0, 141); (642, 0, 141); (643, 0, 141); (644, 0, 141); (645, 0, 141); (646, 0, 142)];
  [(423, 2, 100)];
  [(122, 2, 74)];
  [(140, 2, 74); (142, 2, 74); (405, 1, 101); (415, 0, 101)];

  [(117, 0, 45); (118, 0, 45); (141, 2, 74); (198, 0, 74); (199, 0, 74); (201, 0, 74); (208, 0, 45); (249, 0, 74); (250, 0, 74); (251, 0, 74); (252, 0, 74); (253, 0, 74); (254, 0, 74); (255, 0, 74); (257, 0, 74); (258, 0, 74); (259, 0, 74); (260, 0, 74); (261, 0, 74); (264, 0, 74); (265, 0, 74); (268, 0, 74); (270, 0, 74); (272, 0, 74); (273, 0, 74); (274, 0, 74); (275, 0, 74); (285, 0, 74); (286, 0, 74); (293, 0, 74); (294, 0, 74); (374, 0, 74); (384, 0, 74); (499, 0, 143)];
  [(472, 2, 105)];
  [];
  [(491, 2, 105)];
  [(415, 0, 105); (473, 2, 105); (475, 0, 105)];
  [(474, 2, 105); (476, 0, 105); (477, 0, 105); (478, 0, 105); (479, 0, 105)];
  [(90, 1, 7); (91, 1, 7)];
  [(87, 2, 106)];
  [(88, 1, 7); (89, 1, 7); (92, 1, 7)];
  [(439, 2, 105)];
  [(131, 2, 74); (132, 0, 30); (133, 0, 30); (134, 0, 30); (135, 0, 30)];

  [(10, 0, 44); (11, 0, 44); (67, 0, 44); (68, 0, 44); (69, 0, 44); (93, 0, 92); (94, 0, 92); (112, 0, 44); (113, 0, 92); (114, 0, 92); (115, 0, 45); (116, 0, 45); (195, 0, 92); (196, 0, 92); (197, 0, 92); (200, 0, 92); (201, 2, 118); (202, 0, 7); (204, 0, 7); (207, 0, 93); (212, 0, 61); (213, 0, 61); (214, 0, 61); (215, 0, 61); (216, 0, 61); (217, 0, 61); (218, 0, 61); (219, 0, 61); (220, 0, 61); (221, 0, 61); (222, 0, 61); (223, 0, 61); (224, 0, 61); (225, 0, 61); (226, 0, 61); (227, 0, 61); (228, 0, 61); (229, 0, 61); (230, 0, 61); (231, 0, 61); (232, 0, 61); (233, 0, 61); (234, 0, 61); (235, 0, 61); (236, 0, 61); (237, 0, 61); (238, 0, 61); (239, 0, 61); (240, 0, 61); (241, 0, 61); (242, 0, 61); (243, 0, 61); (244, 0, 61); (245, 0, 61); (246, 0, 61); (247, 0, 61); (284, 0, 92); (287, 0, 92); (288, 0, 92); (295, 0, 92); (304, 0, 92); (305, 0, 92); (306, 0, 92); (311, 0, 92); (312, 0, 61); (313, 0, 92); (314, 0, 92); (333, 0, 7); (334, 0, 92); (335, 0, 92); (336, 0, 92); (337, 0, 7); (338, 0, 92); (339, 0, 92); (346, 0, 7); (347, 0, 92); (348, 0, 7); (349, 0, 7); (350, 0, 7); (351, 0, 46); (360, 0, 92); (372, 0, 92); (373, 0, 92); (380, 0, 92); (381, 0, 92); (382, 0, 92); (383, 0, 92); (385, 0, 92); (386, 0, 92); (387, 0, 92); (388, 0, 92); (389, 0, 92); (390, 0, 92); (391, 0, 92); (392, 0, 92); (393, 0, 92); (394, 0, 92); (395, 0, 92); (396, 0, 92); (397, 0, 92); (398, 0, 92); (399, 0, 92); (400, 0, 92); (401, 0, 92); (402, 0, 92); (403, 0, 92); (404, 0, 92); (405, 0, 92); (406, 0, 92); (407, 0, 7); (408, 0, 7); (409, 0, 7); (410, 0, 7); (411, 0, 92); (412, 0, 92); (413, 0, 92); (414, 0, 92); (497, 0, 94); (498, 0, 43); (600, 0, 7); (601, 0, 7); (602, 0, 7); (603, 0, 7); (604, 0, 7); (605, 0, 7); (606, 0, 7); (607, 0, 7); (608, 0, 7); (609, 0, 7); (610, 0, 7); (611, 0, 7); (612, 0, 7); (613, 0, 7); (614, 0, 7); (615, 0, 7); (616, 0, 7); (617, 0, 7); (618, 0, 7); (619, 0, 7); (620, 0, 7); (621, 0, 7); (622, 0, 7); (623, 0, 7); (624, 0, 7); (625, 0, 7); (626, 0, 7); (627, 0, 7); (628, 0, 7); (629, 0, 7); (630, 0, 7); (631, 0, 7); (632, 0, 7); (633, 0, 7); (634, 0, 7)];
  [(415, 3, 73)];
  [(420, 2, 120); (421, 2, 120)];
  [(435, 1, 122)];
  [(434, 1, 122)];

  [(117, 0, 45); (118, 0, 45); (201, 0, 99); (208, 0, 45); (285, 0, 99); (286, 0, 99); (293, 0, 99); (294, 0, 99); (384, 0, 99); (425, 2, 121); (427, 0, 123); (428, 0, 123); (429, 0, 80); (430, 0, 123); (431, 0, 123); (432, 0, 81); (438, 0, 105); (439, 0, 105); (440, 0, 105); (441, 0, 105); (442, 0, 105); (443, 0, 105); (444, 0, 105); (446, 0, 105); (447, 0, 105); (448, 0, 105); (459, 0, 105); (460, 0, 40); (461, 0, 105); (462, 0, 83); (463, 0, 83); (466, 0, 85); (467, 0, 85); (470, 0, 105); (472, 0, 105); (473, 0, 105); (474, 0, 105); (491, 0, 105); (499, 0, 45); (635, 0, 99); (636, 0, 99); (637, 0, 99); (638, 0, 99); (639, 0, 99); (640, 0, 99); (641, 0, 99); (642, 0, 99); (643, 0, 99); (644, 0, 99); (645, 0, 99); (646, 0, 84)];
  [(437, 1, 122)];
  [(436, 1, 122)];

  [(117, 0, 45); (118, 0, 45); (201, 0, 99); (208, 0, 45); (285, 0, 99); (286, 0, 99); (293, 0, 99); (294, 0, 99); (384, 0, 99); (428, 2, 123); (430, 0, 123); (431, 0, 123); (432, 0, 81); (438, 0, 105); (439, 0, 105); (440, 0, 105); (441, 0, 105); (442, 0, 105); (443, 0, 105); (444, 0, 105); (446, 0, 105); (447, 0, 105); (448, 0, 105); (459, 0, 105); (460, 0, 40); (461, 0, 105); (462, 0, 83); (463, 0, 83); (466, 0, 85); (467, 0, 85); (470, 0, 105); (472, 0, 105); (473, 0, 105); (474, 0, 105); (491, 0, 105); (499, 0, 45); (635, 0, 99); (636, 0, 99); (637, 0, 99); (638, 0, 99); (639, 0, 99); (640, 0, 99); (641, 0, 99); (642, 0, 99); (643, 0, 99); (644, 0, 99); (645, 0, 99); (646, 0, 84)];
  [(431, 2, 123)];
  [(405, 1, 124); (415, 0, 124); (459, 2, 105)];

  [(117, 0, 45); (118, 0, 45); (201, 0, 105); (208, 0, 45); (285, 0, 105); (286, 0, 105); (293, 0, 105); (294, 0, 105); (384, 0, 105); (461, 2, 105); (464, 0, 105); (465, 0, 105); (468, 0, 105); (469, 0, 105); (499, 0, 45); (635, 0, 105); (636, 0, 105); (637, 0, 105); (638, 0, 105); (639, 0, 105); (640, 0, 105); (641, 0, 105); (642, 0, 105); (643, 0, 105); (644, 0, 105); (645, 0, 105); (646, 0, 26)];
  [(463, 2, 83)];
  [(208, 2, 45); (499, 0, 45)];
  [(405, 1, 49); (409, 4, 50); (415, 0, 49)];
  [(413, 4, 49)];
  [(405, 1, 49); (410, 4, 50); (415, 0, 49)];
  [(414, 4, 49)];
  [(336, 4, 49)];
  [(405, 1, 49); (407, 4, 50); (415, 0, 49)];
  [(411, 4, 49)];
  [(405, 1, 49); (408, 4, 50); (415, 0, 49)];
  [(412, 4, 49)];

  [(6, 0, 145); (8, 0, 145); (9, 0, 145); (10, 0, 147); (11, 0, 147); (29, 1, 128); (42, 1, 30); (46, 1, 30); (67, 0, 44); (68, 0, 44); (69, 0, 44); (93, 0, 144); (94, 0, 144); (112, 0, 44); (113, 0, 144); (114, 0, 144); (115, 0, 45); (116, 0, 45); (195, 0, 144); (196, 0, 144); (197, 0, 144); (200, 0, 144); (207, 0, 148); (212, 0, 144); (213, 0, 144); (214, 0, 144); (215, 0, 144); (216, 0, 144); (217, 0, 144); (218, 0, 144); (219, 0, 144); (220, 0, 144); (221, 0, 144); (222, 0, 144); (223, 0, 144); (224, 0, 144); (225, 0, 144); (226, 0, 144); (227, 0, 144); (228, 0, 144); (229, 0, 144); (230, 0, 144); (231, 0, 144); (232, 0, 144); (233, 0, 144); (234, 0, 144); (235, 0, 144); (236, 0, 144); (237, 0, 144); (238, 0, 144); (239, 0, 144); (240, 0, 144); (241, 0, 144); (242, 0, 144); (243, 0, 144); (244, 0, 144); (245, 0, 144); (246, 0, 144); (247, 0, 144); (284, 0, 144); (287, 0, 144); (288, 0, 144); (295, 0, 144); (304, 0, 144); (305, 0, 144); (306, 0, 144); (311, 0, 144); (312, 0, 144); (313, 0, 144); (314, 0, 144); (333, 0, 146); (334, 0, 144); (335, 0, 144); (336, 0, 144); (337, 0, 146); (338, 0, 144); (339, 0, 144); (346, 0, 146); (347, 0, 144); (348, 0, 146); (349, 0, 146); (350, 0, 146); (351, 0, 46); (360, 0, 144); (372, 0, 144); (373, 0, 144); (380, 0, 144); (381, 0, 144); (382, 0, 144); (383, 0, 144); (385, 0, 144); (386, 0, 144); (387, 0, 144); (388, 0, 144); (389, 0, 144); (390, 0, 144); (391, 0, 144); (392, 0, 144); (393, 0, 144); (394, 0, 144); (395, 0, 144); (396, 0, 144); (397, 0, 144); (398, 0, 144); (399, 0, 144); (400, 0, 144); (401, 0, 144); (402, 0, 144); (403, 0, 144); (404, 0, 144); (405, 0, 144); (406, 0, 144); (407, 0, 146); (408, 0, 146); (409, 0, 146); (410, 0, 146); (411, 0, 144); (412, 0, 144); (413, 0, 144); (414, 0, 144); (497, 0, 149); (498, 0, 43)];

  [(10, 0, 44); (11, 0, 44); (24, 0, 146); (25, 0, 146); (37, 1, 30); (41, 1, 30); (67, 0, 44); (68, 0, 44); (69, 0, 44); (93, 0, 144); (94, 0, 144); (112, 0, 44); (113, 0, 144); (114, 0, 144); (115, 0, 45); (116, 0, 45); (195, 0, 144); (196, 0, 144); (197, 0, 144); (200, 0, 144); (207, 0, 148); (212, 0, 144); (213, 0, 144); (214, 0, 144); (215, 0, 144); (216, 0, 144); (217, 0, 144); (218, 0, 144); (219, 0, 144); (220, 0, 144); (221, 0, 144); (222, 0, 144); (223, 0, 144); (224, 0, 144); (225, 0, 144); (226, 0, 144); (227, 0, 144); (228, 0, 144); (229, 0, 144); (230, 0, 144); (231, 0, 144); (232, 0, 144); (233, 0, 144); (234, 0, 144); (235, 0, 144); (236, 0, 144); (237, 0, 144); (238, 0, 144); (239, 0, 144); (240, 0, 144); (241, 0, 144); (242, 0, 144); (243, 0, 144); (244, 0, 144); (245, 0, 144); (246, 0, 144); (247, 0, 144); (284, 0, 144); (287, 0, 144); (288, 0, 144); (295, 0, 144); (304, 0, 144); (305, 0, 144); (306, 0, 144); (311, 0, 144); (312, 0, 144); (313, 0, 144); (314, 0, 144); (333, 0, 146); (334, 0, 144); (335, 0, 144); (336, 0, 144); (337, 0, 146); (338, 0, 144); (339, 0, 144); (346, 0, 146); (347, 0, 144); (348, 0, 146); (349, 0, 146); (350, 0, 146); (351, 0, 46); (360, 0, 144); (372, 0, 144); (373, 0, 144); (380, 0, 144); (381, 0, 144); (382, 0, 144); (383, 0, 144); (385, 0, 144); (386, 0, 144); (387, 0, 144); (388, 0, 144); (389, 0, 144); (390, 0, 144); (391, 0, 144); (392, 0, 144); (393, 0, 144); (394, 0, 144); (395, 0, 144); (396, 0, 144); (397, 0, 144); (398, 0, 144); (399, 0, 144); (400, 0, 144); (401, 0, 144); (402, 0, 144); (403, 0, 144); (404, 0, 144); (405, 0, 144); (406, 0, 144); (407, 0, 146); (408, 0, 146); (409, 0, 146); (410, 0, 146); (411, 0, 144); (412, 0, 144); (413, 0, 144); (414, 0, 144); (497, 0, 149); (498, 0, 43)];
  [(6, 0, 70); (8, 0, 70); (9, 0, 70); (10, 0, 70); (11, 0, 70); (50, 1, 30)];
  [(15, 3, 34); (17, 1, 30)];
  [(16, 1, 30)];
  [(18, 1, 30)];
  [(28, 1, 30); (30, 1, 128); (31, 0, 30); (32, 0, 30); (33, 0, 30)];
  [(19, 1, 30)];
  [(20, 1, 30)];
  [(21, 1, 30)];
  [(22, 1, 30)];
  [(23, 1, 30)];
  [];
  [(9, 3, 49)];
  [(105, 3, 30)];
  [(106, 3, 30)];
  [(354, 1, 130)];
  [(355, 1, 130)];
  [(351, 4, 46)];
  [(24, 0, 48); (25, 0, 48); (27, 2, 48)];
  [(101, 5, 34)];
  [];
  [(282, 1, 134)];

  [(117, 0, 45); (118, 0, 45); (198, 0, 135); (199, 0, 134); (201, 0, 134); (208, 0, 45); (249, 0, 134); (250, 0, 134); (251, 0, 134); (252, 0, 134); (253, 0, 134); (254, 0, 134); (255, 0, 134); (257, 0, 134); (258, 0, 134); (259, 0, 134); (260, 0, 134); (261, 0, 134); (264, 0, 134); (265, 0, 134); (268, 0, 134); (268, 2, 133); (270, 0, 134); (272, 0, 134); (273, 0, 134); (274, 0, 134); (275, 0, 134); (283, 1, 134); (285, 0, 134); (286, 0, 134); (293, 0, 134); (294, 0, 134); (374, 0, 134); (384, 0, 134); (499, 0, 136)];
  [(258, 2, 133)];
  [(200, 4, 49)];
  [];
  [];
  [];
  [];
  [];
  [];
  [(264, 2, 133); (265, 2, 133)];
  [(69, 2, 44)];
  [(281, 2, 30)];
  [(100, 5, 34)];
  [];
  [(208, 2, 45); (499, 0, 45)];
  [];
  [];
  [(361, 3, 31)];
  [(364, 2, 7)];
  [(369, 0, 16); (371, 2, 8)];
  [(306, 5, 49)];
  [(308, 2, 30); (309, 0, 30); (310, 0, 30); (498, 0, 61)];
  [(117, 0, 45); (118, 0, 45); (198, 0, 16); (199, 0, 16); (201, 0, 16); (208, 0, 45); (309, 2, 30); (310, 2, 30); (499, 0, 140)];
  [(342, 3, 7); (343, 3, 7)];
  [(345, 3, 30)];
  [(495, 1, 139)];
  [];
  [(494, 1, 139)];
  [(492, 2, 139)];
  [(297, 3, 7); (298, 3, 7); (492, 0, 30); (493, 0, 30)];
  [(301, 3, 30)];
  [(292, 3, 30)];
  [(291, 3, 30)];
  [(290, 3, 30)];
  [(332, 3, 30); (405, 1, 66); (415, 0, 66)];

  [(10, 0, 44); (11, 0, 44); (67, 0, 44); (68, 0, 44); (69, 0, 44); (93, 0, 69); (94, 0, 69); (112, 0, 44); (113, 0, 69); (114, 0, 69); (115, 0, 45); (116, 0, 45); (195, 0, 69); (196, 0, 69); (197, 0, 69); (200, 0, 69); (207, 0, 71); (212, 0, 69); (213, 0, 69); (214, 0, 69); (215, 0, 69); (216, 0, 69); (217, 0, 69); (218, 0, 69); (219, 0, 69); (220, 0, 69); (221, 0, 69); (222, 0, 69); (223, 0, 69); (224, 0, 69); (225, 0, 69); (226, 0, 69); (227, 0, 69); (228, 0, 69); (229, 0, 69); (230, 0, 69); (231, 0, 69); (232, 0, 69); (233, 0, 69); (234, 0, 69); (235, 0, 69); (236, 0, 69); (237, 0, 69); (238, 0, 69); (239, 0, 69); (240, 0, 69); (241, 0, 69); (242, 0, 69); (243, 0, 69); (244, 0, 69); (245, 0, 69); (246, 0, 69); (247, 0, 69); (248, 0, 70); (284, 0, 69); (287, 0, 69); (288, 0, 69); (295, 0, 69); (304, 0, 69); (305, 0, 69); (306, 0, 69); (311, 0, 69); (312, 0, 69); (313, 0, 69); (314, 0, 69); (320, 3, 7); (321, 3, 7); (323, 3, 7); (324, 0, 30); (325, 0, 30); (326, 0, 30); (327, 0, 30); (328, 0, 30); (329, 0, 30); (330, 0, 30); (331, 0, 30); (332, 0, 30); (333, 0, 70); (334, 0, 69); (335, 0, 69); (336, 0, 69); (337, 0, 70); (338, 0, 69); (339, 0, 69); (346, 0, 70); (347, 0, 69); (348, 0, 70); (349, 0, 70); (350, 0, 70); (351, 0, 46); (360, 0, 69); (372, 0, 69); (373, 0, 69); (380, 0, 69); (381, 0, 69); (382, 0, 69); (383, 0, 69); (385, 0, 69); (386, 0, 69); (387, 0, 69); (388, 0, 69); (389, 0, 69); (390, 0, 69); (391, 0, 69); (392, 0, 69); (393, 0, 69); (394, 0, 69); (395, 0, 69); (396, 0, 69); (397, 0, 69); (398, 0, 69); (399, 0, 69); (400, 0, 69); (401, 0, 69); (402, 0, 69); (403, 0, 69); (404, 0, 69); (405, 0, 69); (406, 0, 69); (407, 0, 70); (408, 0, 70); (409, 0, 70); (410, 0, 70); (411, 0, 69); (412, 0, 69); (413, 0, 69); (414, 0, 69); (497, 0, 72); (498, 0, 67)];
  [(450, 1, 30)];
  [(455, 1, 30); (640, 1, 105)];
  [(328, 3, 30)];
  [(331, 3, 30)];
  [(316, 3, 7); (317, 3, 7); (318, 3, 7); (319, 3, 7); (492, 0, 30); (493, 0, 30)];
  [(325, 3, 30)];
  [(433, 2, 123)];

  [(6, 0, 7); (8, 0, 7); (9, 0, 7); (10, 0, 7); (11, 0, 7); (83, 0, 7); (84, 0, 7); (85, 0, 7); (122, 3, 74); (125, 0, 7); (127, 0, 7); (128, 0, 7); (129, 0, 7); (497, 0, 7)];
  [(142, 3, 74)];
  [(141, 3, 74)];
  [(475, 1, 105)];
  [(473, 3, 105)];
  [(477, 1, 105); (478, 1, 105); (479, 1, 105); (480, 0, 7); (481, 0, 7); (482, 0, 30); (498, 0, 150)];
  [(474, 3, 105)];

  [(91, 2, 7); (117, 0, 45); (118, 0, 45); (201, 0, 154); (208, 0, 45); (285, 0, 154); (286, 0, 154); (293, 0, 154); (294, 0, 154); (384, 0, 154); (422, 0, 7); (423, 0, 7); (424, 0, 151); (425, 0, 151); (426, 0, 79); (427, 0, 152); (428, 0, 152); (429, 0, 80); (430, 0, 152); (431, 0, 152); (432, 0, 81); (438, 0, 153); (439, 0, 153); (440, 0, 153); (441, 0, 153); (442, 0, 153); (443, 0, 153); (444, 0, 153); (446, 0, 153); (447, 0, 153); (448, 0, 153); (459, 0, 153); (460, 0, 40); (461, 0, 153); (462, 0, 83); (463, 0, 83); (466, 0, 85); (467, 0, 85); (470, 0, 153); (472, 0, 153); (473, 0, 153); (474, 0, 153); (491, 0, 153); (499, 0, 45); (635, 0, 154); (636, 0, 154); (637, 0, 154); (638, 0, 154); (639, 0, 154); (640, 0, 154); (641, 0, 154); (642, 0, 154); (643, 0, 154); (644, 0, 154); (645, 0, 154); (646, 0, 155)];
  [(87, 3, 106)];
  [(89, 2, 7); (92, 2, 7)];
  [(439, 3, 105)];
  [(134, 1, 30); (135, 1, 30); (138, 0, 156); (139, 0, 156); (498, 0, 156)];
  [(131, 3, 74); (133, 1, 30)];
  [(132, 1, 30)];
  [(201, 3, 118)];
  [(415, 4, 73)];
  [(420, 3, 120); (421, 3, 120)];
  [(425, 3, 121); (429, 1, 80)];
  [(428, 3, 123)];
  [(469, 1, 105)];

  [(117, 0, 45); (118, 0, 45); (201, 0, 105); (208, 0, 45); (285, 0, 105); (286, 0, 105); (293, 0, 105); (294, 0, 105); (384, 0, 105); (465, 1, 105); (468, 0, 105); (469, 0, 105); (499, 0, 45); (635, 0, 105); (636, 0, 105); (637, 0, 105); (638, 0, 105); (639, 0, 105); (640, 0, 105); (641, 0, 105); (642, 0, 105); (643, 0, 105); (644, 0, 105); (645, 0, 105); (646, 0, 26)];
  [(468, 1, 105)];
  [(461, 3, 105)];
  [(464, 1, 105)];
  [(208, 3, 45)];
  [(46, 2, 30); (47, 0, 30); (49, 0, 30)];
  [(34, 0, 70); (35, 0, 70); (36, 0, 157); (42, 2, 30); (405, 1, 144); (415, 0, 144)];
  [(34, 0, 70); (35, 0, 70); (36, 0, 157); (41, 2, 30)];
  [(34, 0, 70); (35, 0, 70); (36, 0, 157); (37, 2, 30); (405, 1, 144); (415, 0, 144)];
  [(50, 2, 30); (51, 0, 30); (52, 0, 30); (53, 0, 30)];
  [(15, 4, 34); (54, 0, 34); (55, 0, 34)];

  [(17, 2, 30); (18, 0, 30); (19, 0, 30); (20, 0, 30); (21, 0, 30); (22, 0, 30); (23, 0, 30); (28, 0, 30); (29, 0, 128); (30, 0, 128); (37, 0, 30); (41, 0, 30); (42, 0, 30); (46, 0, 30); (50, 0, 30)];
  [(30, 2, 128)];

  [(10, 0, 44); (11, 0, 44); (32, 1, 30); (67, 0, 44); (68, 0, 44); (69, 0, 44); (93, 0, 66); (94, 0, 66); (112, 0, 44); (113, 0, 66); (114, 0, 66); (115, 0, 45); (116, 0, 45); (195, 0, 66); (196, 0, 66); (197, 0, 66); (200, 0, 66); (207, 0, 96); (212, 0, 66); (213, 0, 66); (214, 0, 66); (215, 0, 66); (216, 0, 66); (217, 0, 66); (218, 0, 66); (219, 0, 66); (220, 0, 66); (221, 0, 66); (222, 0, 66); (223, 0, 66); (224, 0, 66); (225, 0, 66); (226, 0, 66); (227, 0, 66); (228, 0, 66); (229, 0, 66); (230, 0, 66); (231, 0, 66); (232, 0, 66); (233, 0, 66); (234, 0, 66); (235, 0, 66); (236, 0, 66); (237, 0, 66); (238, 0, 66); (239, 0, 66); (240, 0, 66); (241, 0, 66); (242, 0, 66); (243, 0, 66); (244, 0, 66); (245, 0, 66); (246, 0, 66); (247, 0, 66); (284, 0, 66); (287, 0, 66); (288, 0, 66); (295, 0, 66); (304, 0, 66); (305, 0, 66); (306, 0, 66); (311, 0, 66); (312, 0, 66); (313, 0, 66); (314, 0, 66); (333, 0, 30); (334, 0, 66); (335, 0, 66); (336, 0, 66); (337, 0, 30); (338, 0, 66); (339, 0, 66); (346, 0, 30); (347, 0, 66); (348, 0, 30); (349, 0, 30); (350, 0, 30); (351, 0, 46); (360, 0, 66); (372, 0, 66); (373, 0, 66); (380, 0, 66); (381, 0, 66); (382, 0, 66); (383, 0, 66); (385, 0, 66); (386, 0, 66); (387, 0, 66); (388, 0, 66); (389, 0, 66); (390, 0, 66); (391, 0, 66); (392, 0, 66); (393, 0, 66); (394, 0, 66); (395, 0, 66); (396, 0, 66); (397, 0, 66); (398, 0, 66); (399, 0, 66); (400, 0, 66); (401, 0, 66); (402, 0, 66); (403, 0, 66); (404, 0, 66); (405, 0, 66); (406, 0, 66); (407, 0, 30); (408, 0, 30); (409, 0, 30); (410, 0, 30); (411, 0, 66); (412, 0, 66); (413, 0, 66); (414, 0, 66); (497, 0, 97); (498, 0, 43)];
  [(31, 1, 30)];
  [(28, 2, 30)];
  [(351, 5, 46)];
  [(27, 3, 48)];
  [(268, 3, 133)];
  [(283, 2, 134)];
  [(258, 3, 133)];
  [];
  [];
  [];
  [];
  [];
  [];
  [(264, 3, 133)];
  [(265, 3, 133)];
  [(281, 3, 30)];
  [];
  [(371, 3, 8)];
  [(308, 3, 30)];
  [(309, 3, 30)];
  [(310, 3, 30)];
  [(248, 0, 30); (343, 4, 7); (344, 0, 30); (345, 0, 30); (498, 0, 40)];
  [];
  [(297, 4, 7); (298, 4, 7)];
  [(292, 4, 30)];
  [(291, 4, 30)];
  [(323, 4, 7)];
  [(320, 4, 7); (321, 4, 7); (325, 1, 30)];
  [(316, 4, 7); (317, 4, 7); (318, 4, 7); (319, 4, 7)];
  [(128, 1, 7)];
  [(127, 1, 7)];
  [(125, 1, 7)];
  [];
  [(122, 4, 74)];
  [];
  [(9, 1, 7); (85, 1, 7)];

  [(117, 0, 45); (118, 0, 45); (142, 4, 74); (198, 0, 74); (199, 0, 74); (201, 0, 74); (208, 0, 45); (249, 0, 74); (250, 0, 74); (251, 0, 74); (252, 0, 74); (253, 0, 74); (254, 0, 74); (255, 0, 74); (257, 0, 74); (258, 0, 74); (259, 0, 74); (260, 0, 74); (261, 0, 74); (264, 0, 74); (265, 0, 74); (268, 0, 74); (270, 0, 74); (272, 0, 74); (273, 0, 74); (274, 0, 74); (275, 0, 74); (285, 0, 74); (286, 0, 74); (293, 0, 74); (294, 0, 74); (374, 0, 74); (384, 0, 74); (499, 0, 143)];
  [(477, 2, 105); (478, 2, 105)];
  [(479, 2, 105)];
  [(480, 1, 7); (481, 1, 7)];
  [(415, 0, 158); (482, 1, 30); (483, 0, 30); (484, 0, 158); (485, 0, 158)];
  [(91, 3, 7)];
  [(89, 3, 7); (92, 3, 7)];
  [(135, 2, 30); (136, 0, 159); (137, 0, 159)];
  [(134, 2, 30); (139, 1, 156)];
  [(138, 1, 156)];
  [(131, 4, 74)];
  [(133, 2, 30); (134, 0, 30); (135, 0, 30)];
  [(201, 4, 118)];

  [(117, 0, 45); (118, 0, 45); (201, 0, 163); (208, 0, 45); (285, 0, 163); (286, 0, 163); (293, 0, 163); (294, 0, 163); (384, 0, 163); (421, 4, 120); (422, 0, 120); (423, 0, 120); (424, 0, 160); (425, 0, 160); (426, 0, 79); (427, 0, 161); (428, 0, 161); (429, 0, 80); (430, 0, 161); (431, 0, 161); (432, 0, 81); (438, 0, 162); (439, 0, 162); (440, 0, 162); (441, 0, 162); (442, 0, 162); (443, 0, 162); (444, 0, 162); (446, 0, 162); (447, 0, 162); (448, 0, 162); (459, 0, 162); (460, 0, 40); (461, 0, 162); (462, 0, 83); (463, 0, 83); (466, 0, 85); (467, 0, 85); (470, 0, 162); (472, 0, 162); (473, 0, 162); (474, 0, 162); (491, 0, 162); (499, 0, 45); (635, 0, 163); (636, 0, 163); (637, 0, 163); (638, 0, 163); (639, 0, 163); (640, 0, 163); (641, 0, 163); (642, 0, 163); (643, 0, 163); (644, 0, 163); (645, 0, 163); (646, 0, 164)];
  [(465, 2, 105)];
  [];
  [(47, 1, 30)];
  [(46, 3, 30)];
  [(34, 1, 70)];
  [(35, 1, 70)];
  [(42, 3, 30); (43, 0, 30); (44, 0, 30); (45, 0, 30)];
  [(38, 0, 30); (39, 0, 30); (40, 0, 30); (41, 3, 30)];
  [(37, 3, 30); (38, 0, 30); (39, 0, 30); (40, 0, 30)];
  [(52, 1, 30)];
  [(51, 1, 30)];
  [(50, 3, 30)];
  [(54, 1, 34)];
  [(15, 5, 34)];
  [(17, 3, 30)];
  [(32, 2, 30); (405, 1, 66); (415, 0, 66)];
  [(258, 4, 133)];
  [(371, 4, 8)];
  [(309, 4, 30)];
  [(310, 4, 30)];
  [(343, 5, 7); (345, 1, 30)];
  [];
  [(291, 0, 30); (292, 0, 30); (298, 5, 7); (300, 0, 30); (301, 0, 30); (302, 0, 30); (303, 0, 30); (498, 0, 66)];

  [(10, 0, 44); (11, 0, 44); (67, 0, 44); (68, 0, 44); (69, 0, 44); (93, 0, 69); (94, 0, 69); (112, 0, 44); (113, 0, 69); (114, 0, 69); (115, 0, 45); (116, 0, 45); (195, 0, 69); (196, 0, 69); (197, 0, 69); (200, 0, 69); (207, 0, 71); (212, 0, 69); (213, 0, 69); (214, 0, 69); (215, 0, 69); (216, 0, 69); (217, 0, 69); (218, 0, 69); (219, 0, 69); (220, 0, 69); (221, 0, 69); (222, 0, 69); (223, 0, 69); (224, 0, 69); (225, 0, 69); (226, 0, 69); (227, 0, 69); (228, 0, 69); (229, 0, 69); (230, 0, 69); (231, 0, 69); (232, 0, 69); (233, 0, 69); (234, 0, 69); (235, 0, 69); (236, 0, 69); (237, 0, 69); (238, 0, 69); (239, 0, 69); (240, 0, 69); (241, 0, 69); (242, 0, 69); (243, 0, 69); (244, 0, 69); (245, 0, 69); (246, 0, 69); (247, 0, 69); (248, 0, 70); (284, 0, 69); (287, 0, 69); (288, 0, 69); (295, 0, 69); (304, 0, 69); (305, 0, 69); (306, 0, 69); (311, 0, 69); (312, 0, 69); (313, 0, 69); (314, 0, 69); (321, 5, 7); (325, 2, 30); (326, 0, 30); (327, 0, 30); (328, 0, 30); (329, 0, 30); (330, 0, 30); (331, 0, 30); (332, 0, 30); (333, 0, 70); (334, 0, 69); (335, 0, 69); (336, 0, 69); (337, 0, 70); (338, 0, 69); (339, 0, 69); (346, 0, 70); (347, 0, 69); (348, 0, 70); (349, 0, 70); (350, 0, 70); (351, 0, 46); (360, 0, 69); (372, 0, 69); (373, 0, 69); (380, 0, 69); (381, 0, 69); (382, 0, 69); (383, 0, 69); (385, 0, 69); (386, 0, 69); (387, 0, 69); (388, 0, 69); (389, 0, 69); (390, 0, 69); (391, 0, 69); (392, 0, 69); (393, 0, 69); (394, 0, 69); (395, 0, 69); (396, 0, 69); (397, 0, 69); (398, 0, 69); (399, 0, 69); (400, 0, 69); (401, 0, 69); (402, 0, 69); (403, 0, 69); (404, 0, 69); (405, 0, 69); (406, 0, 69); (407, 0, 70); (408, 0, 70); (409, 0, 70); (410, 0, 70); (411, 0, 69); (412, 0, 69); (413, 0, 69); (414, 0, 69); (497, 0, 72); (498, 0, 67)];

  [(10, 0, 44); (11, 0, 44); (67, 0, 44); (68, 0, 44); (69, 0, 44); (93, 0, 69); (94, 0, 69); (112, 0, 44); (113, 0, 69); (114, 0, 69); (115, 0, 45); (116, 0, 45); (195, 0, 69); (196, 0, 69); (197, 0, 69); (200, 0, 69); (207, 0, 71); (212, 0, 69); (213, 0, 69); (214, 0, 69); (215, 0, 69); (216, 0, 69); (217, 0, 69); (218, 0, 69); (219, 0, 69); (220, 0, 69); (221, 0, 69); (222, 0, 69); (223, 0, 69); (224, 0, 69); (225, 0, 69); (226, 0, 69); (227, 0, 69); (228, 0, 69); (229, 0, 69); (230, 0, 69); (231, 0, 69); (232, 0, 69); (233, 0, 69); (234, 0, 69); (235, 0, 69); (236, 0, 69); (237, 0, 69); (238, 0, 69); (239, 0, 69); (240, 0, 69); (241, 0, 69); (242, 0, 69); (243, 0, 69); (244, 0, 69); (245, 0, 69); (246, 0, 69); (247, 0, 69); (248, 0, 70); (284, 0, 69); (287, 0, 69); (288, 0, 69); (295, 0, 69); (304, 0, 69); (305, 0, 69); (306, 0, 69); (311, 0, 69); (312, 0, 69); (313, 0, 69); (314, 0, 69); (317, 5, 7); (318, 5, 7); (319, 5, 7); (324, 0, 30); (325, 0, 30); (326, 0, 30); (327, 0, 30); (328, 0, 30); (329, 0, 30); (330, 0, 30); (331, 0, 30); (332, 0, 30); (333, 0, 70); (334, 0, 69); (335, 0, 69); (336, 0, 69); (337, 0, 70); (338, 0, 69); (339, 0, 69); (346, 0, 70); (347, 0, 69); (348, 0, 70); (349, 0, 70); (350, 0, 70); (351, 0, 46); (360, 0, 69); (372, 0, 69); (373, 0, 69); (380, 0, 69); (381, 0, 69); (382, 0, 69); (383, 0, 69); (385, 0, 69); (386, 0, 69); (387, 0, 69); (388, 0, 69); (389, 0, 69); (390, 0, 69); (391, 0, 69); (392, 0, 69); (393, 0, 69); (394, 0, 69); (395, 0, 69); (396, 0, 69); (397, 0, 69); (398, 0, 69); (399, 0, 69); (400, 0, 69); (401, 0, 69); (402, 0, 69); (403, 0, 69); (404, 0, 69); (405, 0, 69); (406, 0, 69); (407, 0, 70); (408, 0, 70); (409, 0, 70); (410, 0, 70); (411, 0, 69); (412, 0, 69); (413, 0, 69); (414, 0, 69); (497, 0, 72); (498, 0, 67)];
  [];
  [(122, 5, 74)];
  [(9, 2, 7); (85, 2, 7); (497, 0, 7)];
  [(142, 5, 74)];
  [(477, 3, 105)];
  [(478, 3, 105); (480, 0, 7); (481, 0, 7); (482, 0, 30); (498, 0, 150)];
  [(479, 3, 105)];
  [(480, 0, 7); (481, 0, 7); (481, 2, 7); (482, 0, 30); (498, 0, 150)];
  [(484, 1, 158)];
  [(482, 2, 30)];
  [(483, 1, 30); (486, 0, 30); (487, 0, 30); (488, 0, 30); (489, 0, 30)];

  [(92, 4, 7); (117, 0, 45); (118, 0, 45); (201, 0, 154); (208, 0, 45); (285, 0, 154); (286, 0, 154); (293, 0, 154); (294, 0, 154); (384, 0, 154); (422, 0, 7); (423, 0, 7); (424, 0, 151); (425, 0, 151); (426, 0, 79); (427, 0, 152); (428, 0, 152); (429, 0, 80); (430, 0, 152); (431, 0, 152); (432, 0, 81); (438, 0, 153); (439, 0, 153); (440, 0, 153); (441, 0, 153); (442, 0, 153); (443, 0, 153); (444, 0, 153); (446, 0, 153); (447, 0, 153); (448, 0, 153); (459, 0, 153); (460, 0, 40); (461, 0, 153); (462, 0, 83); (463, 0, 83); (466, 0, 85); (467, 0, 85); (470, 0, 153); (472, 0, 153); (473, 0, 153); (474, 0, 153); (491, 0, 153); (499, 0, 45); (635, 0, 154); (636, 0, 154); (637, 0, 154); (638, 0, 154); (639, 0, 154); (640, 0, 154); (641, 0, 154); (642, 0, 154); (643, 0, 154); (644, 0, 154); (645, 0, 154); (646, 0, 155)];
  [(136, 0, 159); (136, 1, 159); (137, 0, 159)];
  [(135, 3, 30); (138, 0, 156); (139, 0, 156); (498, 0, 156)];
  [(139, 2, 156); (498, 0, 156)];
  [(133, 3, 30)];
  [(421, 5, 120)];
  [];
  [];
  [];
  [];
  [];
  [];
  [(44, 1, 30); (281, 0, 30)];
  [(43, 1, 30)];
  [(42, 4, 30)];

  [(39, 1, 30); (117, 0, 45); (118, 0, 45); (198, 0, 30); (199, 0, 30); (201, 0, 30); (208, 0, 45); (285, 0, 30); (286, 0, 30); (293, 0, 30); (294, 0, 30); (384, 0, 30); (449, 0, 30); (450, 0, 30); (451, 0, 30); (452, 0, 30); (453, 0, 30); (454, 0, 30); (455, 0, 30); (456, 0, 30); (457, 0, 30); (458, 0, 30); (499, 0, 129)];
  [(38, 1, 30)];
  [(41, 4, 30)];
  [(37, 4, 30)];
  [(5, 0, 34); (54, 2, 34)];
  [(248, 0, 30); (345, 2, 30); (498, 0, 40)];
  [(298, 6, 7); (301, 1, 30)];
  [(321, 6, 7)];
  [(317, 6, 7); (318, 6, 7); (319, 6, 7); (325, 1, 30)];
  [];
  [];
  [];
  [(497, 1, 7)];
  [(478, 4, 105)];
  [(481, 3, 7)];
  [(487, 1, 30)];
  [(488, 1, 30)];
  [(486, 1, 30)];
  [(483, 2, 30)];
  [(92, 5, 7)];
  [(136, 2, 159)];
  [(135, 4, 30); (139, 1, 156)];
  [(139, 3, 156)];
  [];
  [];
  [(503, 1, 165)];
  [];
  [(505, 1, 165)];
  [(506, 1, 165)];
  [];
  [(508, 1, 165)];
  [(509, 1, 165)];
  [];
  [];
  [];
  [];
  [];
  [];
  [(516, 1, 165)];
  [(517, 1, 165)];
  [(518, 1, 165)];
  [(519, 1, 165)];
  [];
  [];
  [];
  [(523, 1, 165)];
  [(524, 1, 165)];
  [];
  [];
  [(527, 1, 165)];
  [(528, 1, 165)];
  [(529, 1, 165)];
  [];
  [(531, 1, 165)];
  [(532, 1, 165)];
  [(533, 1, 165)];
  [(534, 1, 165)];
  [];
  [];
  [(537, 1, 165)];
  [(538, 1, 165)];
  [(539, 1, 165)];
  [(540, 1, 165)];
  [(541, 1, 165)];
  [(542, 1, 165)];
  [];
  [(544, 1, 165)];
  [];
  [(546, 1, 165)];
  [(547, 1, 165)];
  [(548, 1, 165)];
  [(549, 1, 165)];
  [(550, 1, 165)];
  [];
  [];
  [(553, 1, 165)];
  [];
  [];
  [(556, 1, 165)];
  [(557, 1, 165)];
  [(558, 1, 165)];
  [(559, 1, 165)];
  [(560, 1, 165)];
  [];
  [];
  [];
  [];
  [];
  [(566, 1, 165)];
  [(567, 1, 165)];
  [(568, 1, 165)];
  [(569, 1, 165)];
  [(570, 1, 165)];
  [];
  [];
  [];
  [];
  [(575, 1, 165)];
  [(576, 1, 165)];
  [(577, 1, 165)];
  [];
  [(66, 1, 165)];
  [];
  [];
  [];
  [];
  [];
  [];
  [];
  [];
  [];
  [(65, 1, 165)];
  [(44, 2, 30)];
  [(39, 2, 30)];

  [(5, 1, 34); (56, 0, 166); (57, 0, 166); (58, 0, 166); (59, 0, 166); (60, 0, 166); (61, 0, 166); (62, 0, 165); (63, 0, 165); (64, 0, 167); (65, 0, 165); (66, 0, 165); (502, 0, 165); (503, 0, 165); (504, 0, 165); (505, 0, 165); (506, 0, 165); (507, 0, 165); (508, 0, 165); (509, 0, 165); (510, 0, 165); (511, 0, 165); (512, 0, 165); (513, 0, 165); (514, 0, 165); (515, 0, 165); (516, 0, 165); (517, 0, 165); (518, 0, 165); (519, 0, 165); (520, 0, 165); (521, 0, 165); (522, 0, 165); (523, 0, 165); (524, 0, 165); (525, 0, 165); (526, 0, 165); (527, 0, 165); (528, 0, 165); (529, 0, 165); (530, 0, 165); (531, 0, 165); (532, 0, 165); (533, 0, 165); (534, 0, 165); (535, 0, 165); (536, 0, 165); (537, 0, 165); (538, 0, 165); (539, 0, 165); (540, 0, 165); (541, 0, 165); (542, 0, 165); (543, 0, 165); (544, 0, 165); (545, 0, 165); (546, 0, 165); (547, 0, 165); (548, 0, 165); (549, 0, 165); (550, 0, 165); (551, 0, 165); (552, 0, 165); (553, 0, 165); (554, 0, 165); (555, 0, 165); (556, 0, 165); (557, 0, 165); (558, 0, 165); (559, 0, 165); (560, 0, 165); (561, 0, 165); (562, 0, 165); (563, 0, 165); (564, 0, 165); (565, 0, 165); (566, 0, 165); (567, 0, 165); (568, 0, 165); (569, 0, 165); (570, 0, 165); (571, 0, 165); (572, 0, 165); (573, 0, 165); (574, 0, 165); (575, 0, 165); (576, 0, 165); (577, 0, 165); (578, 0, 165)];
  [(54, 3, 34)];
  [(291, 0, 30); (292, 0, 30); (301, 2, 30); (302, 0, 30); (303, 0, 30); (498, 0, 66)];

  [(10, 0, 44); (11, 0, 44); (67, 0, 44); (68, 0, 44); (69, 0, 44); (93, 0, 69); (94, 0, 69); (112, 0, 44); (113, 0, 69); (114, 0, 69); (115, 0, 45); (116, 0, 45); (195, 0, 69); (196, 0, 69); (197, 0, 69); (200, 0, 69); (207, 0, 71); (212, 0, 69); (213, 0, 69); (214, 0, 69); (215, 0, 69); (216, 0, 69); (217, 0, 69); (218, 0, 69); (219, 0, 69); (220, 0, 69); (221, 0, 69); (222, 0, 69); (223, 0, 69); (224, 0, 69); (225, 0, 69); (226, 0, 69); (227, 0, 69); (228, 0, 69); (229, 0, 69); (230, 0, 69); (231, 0, 69); (232, 0, 69); (233, 0, 69); (234, 0, 69); (235, 0, 69); (236, 0, 69); (237, 0, 69); (238, 0, 69); (239, 0, 69); (240, 0, 69); (241, 0, 69); (242, 0, 69); (243, 0, 69); (244, 0, 69); (245, 0, 69); (246, 0, 69); (247, 0, 69); (248, 0, 70); (284, 0, 69); (287, 0, 69); (288, 0, 69); (295, 0, 69); (304, 0, 69); (305, 0, 69); (306, 0, 69); (311, 0, 69); (312, 0, 69); (313, 0, 69); (314, 0, 69); (318, 7, 7); (319, 7, 7); (325, 2, 30); (326, 0, 30); (327, 0, 30); (328, 0, 30); (329, 0, 30); (330, 0, 30); (331, 0, 30); (332, 0, 30); (333, 0, 70); (334, 0, 69); (335, 0, 69); (336, 0, 69); (337, 0, 70); (338, 0, 69); (339, 0, 69); (346, 0, 70); (347, 0, 69); (348, 0, 70); (349, 0, 70); (350, 0, 70); (351, 0, 46); (360, 0, 69); (372, 0, 69); (373, 0, 69); (380, 0, 69); (381, 0, 69); (382, 0, 69); (383, 0, 69); (385, 0, 69); (386, 0, 69); (387, 0, 69); (388, 0, 69); (389, 0, 69); (390, 0, 69); (391, 0, 69); (392, 0, 69); (393, 0, 69); (394, 0, 69); (395, 0, 69); (396, 0, 69); (397, 0, 69); (398, 0, 69); (399, 0, 69); (400, 0, 69); (401, 0, 69); (402, 0, 69); (403, 0, 69); (404, 0, 69); (405, 0, 69); (406, 0, 69); (407, 0, 70); (408, 0, 70); (409, 0, 70); (410, 0, 70); (411, 0, 69); (412, 0, 69); (413, 0, 69); (414, 0, 69); (497, 0, 72); (498, 0, 67)];
  [];
  [(478, 5, 105)];
  [];
  [];
  [];
  [];
  [(504, 1, 165)];
  [(507, 1, 165)];
  [(510, 1, 165)];
  [(511, 1, 165)];
  [(512, 1, 165)];
  [(513, 1, 165)];
  [(514, 1, 165)];
  [(515, 1, 165)];
  [(520, 1, 165)];
  [(521, 1, 165)];
  [(522, 1, 165)];
  [(525, 1, 165)];
  [(526, 1, 165)];
  [(530, 1, 165)];
  [(535, 1, 165)];
  [(536, 1, 165)];
  [(543, 1, 165)];
  [(545, 1, 165)];
  [(551, 1, 165)];
  [(552, 1, 165)];
  [(554, 1, 165)];
  [(555, 1, 165)];
  [(561, 1, 165)];
  [(562, 1, 165)];
  [(563, 1, 165)];
  [(564, 1, 165)];
  [(565, 1, 165)];
  [(571, 1, 165)];
  [(572, 1, 165)];
  [(573, 1, 165)];
  [(574, 1, 165)];
  [(578, 1, 165)];

  [(56, 0, 169); (57, 0, 169); (58, 0, 169); (59, 0, 169); (60, 0, 169); (60, 1, 168); (61, 0, 169); (62, 0, 165); (63, 0, 165); (64, 0, 167); (65, 0, 165); (66, 0, 165); (502, 0, 165); (503, 0, 165); (504, 0, 165); (505, 0, 165); (506, 0, 165); (507, 0, 165); (508, 0, 165); (509, 0, 165); (510, 0, 165); (511, 0, 165); (512, 0, 165); (513, 0, 165); (514, 0, 165); (515, 0, 165); (516, 0, 165); (517, 0, 165); (518, 0, 165); (519, 0, 165); (520, 0, 165); (521, 0, 165); (522, 0, 165); (523, 0, 165); (524, 0, 165); (525, 0, 165); (526, 0, 165); (527, 0, 165); (528, 0, 165); (529, 0, 165); (530, 0, 165); (531, 0, 165); (532, 0, 165); (533, 0, 165); (534, 0, 165); (535, 0, 165); (536, 0, 165); (537, 0, 165); (538, 0, 165); (539, 0, 165); (540, 0, 165); (541, 0, 165); (542, 0, 165); (543, 0, 165); (544, 0, 165); (545, 0, 165); (546, 0, 165); (547, 0, 165); (548, 0, 165); (549, 0, 165); (550, 0, 165); (551, 0, 165); (552, 0, 165); (553, 0, 165); (554, 0, 165); (555, 0, 165); (556, 0, 165); (557, 0, 165); (558, 0, 165); (559, 0, 165); (560, 0, 165); (561, 0, 165); (562, 0, 165); (563, 0, 165); (564, 0, 165); (565, 0, 165); (566, 0, 165); (567, 0, 165); (568, 0, 165); (569, 0, 165); (570, 0, 165); (571, 0, 165); (572, 0, 165); (573, 0, 165); (574, 0, 165); (575, 0, 165); (576, 0, 165); (577, 0, 165); (578, 0, 165)];
  [(502, 1, 165)];

  [(5, 2, 34); (57, 1, 166); (58, 0, 166); (59, 0, 166); (60, 0, 166); (61, 0, 166); (62, 0, 165); (63, 0, 165); (64, 0, 167); (65, 0, 165); (66, 0, 165); (502, 0, 165); (503, 0, 165); (504, 0, 165); (505, 0, 165); (506, 0, 165); (507, 0, 165); (508, 0, 165); (509, 0, 165); (510, 0, 165); (511, 0, 165); (512, 0, 165); (513, 0, 165); (514, 0, 165); (515, 0, 165); (516, 0, 165); (517, 0, 165); (518, 0, 165); (519, 0, 165); (520, 0, 165); (521, 0, 165); (522, 0, 165); (523, 0, 165); (524, 0, 165); (525, 0, 165); (526, 0, 165); (527, 0, 165); (528, 0, 165); (529, 0, 165); (530, 0, 165); (531, 0, 165); (532, 0, 165); (533, 0, 165); (534, 0, 165); (535, 0, 165); (536, 0, 165); (537, 0, 165); (538, 0, 165); (539, 0, 165); (540, 0, 165); (541, 0, 165); (542, 0, 165); (543, 0, 165); (544, 0, 165); (545, 0, 165); (546, 0, 165); (547, 0, 165); (548, 0, 165); (549, 0, 165); (550, 0, 165); (551, 0, 165); (552, 0, 165); (553, 0, 165); (554, 0, 165); (555, 0, 165); (556, 0, 165); (557, 0, 165); (558, 0, 165); (559, 0, 165); (560, 0, 165); (561, 0, 165); (562, 0, 165); (563, 0, 165); (564, 0, 165); (565, 0, 165); (566, 0, 165); (567, 0, 165); (568, 0, 165); (569, 0, 165); (570, 0, 165); (571, 0, 165); (572, 0, 165); (573, 0, 165); (574, 0, 165); (575, 0, 165); (576, 0, 165); (577, 0, 165); (578, 0, 165)];
  [(56, 1, 168)];
  [(59, 1, 168)];
  [(58, 1, 168)];

  [(24, 0, 168); (25, 0, 168); (61, 1, 168); (63, 1, 165); (65, 0, 165); (66, 0, 165); (502, 0, 165); (503, 0, 165); (504, 0, 165); (505, 0, 165); (506, 0, 165); (507, 0, 165); (508, 0, 165); (509, 0, 165); (510, 0, 165); (511, 0, 165); (512, 0, 165); (513, 0, 165); (514, 0, 165); (515, 0, 165); (516, 0, 165); (517, 0, 165); (518, 0, 165); (519, 0, 165); (520, 0, 165); (521, 0, 165); (522, 0, 165); (523, 0, 165); (524, 0, 165); (525, 0, 165); (526, 0, 165); (527, 0, 165); (528, 0, 165); (529, 0, 165); (530, 0, 165); (531, 0, 165); (532, 0, 165); (533, 0, 165); (534, 0, 165); (535, 0, 165); (536, 0, 165); (537, 0, 165); (538, 0, 165); (539, 0, 165); (540, 0, 165); (541, 0, 165); (542, 0, 165); (543, 0, 165); (544, 0, 165); (545, 0, 165); (546, 0, 165); (547, 0, 165); (548, 0, 165); (549, 0, 165); (550, 0, 165); (551, 0, 165); (552, 0, 165); (553, 0, 165); (554, 0, 165); (555, 0, 165); (556, 0, 165); (557, 0, 165); (558, 0, 165); (559, 0, 165); (560, 0, 165); (561, 0, 165); (562, 0, 165); (563, 0, 165); (564, 0, 165); (565, 0, 165); (566, 0, 165); (567, 0, 165); (568, 0, 165); (569, 0, 165); (570, 0, 165); (571, 0, 165); (572, 0, 165); (573, 0, 165); (574, 0, 165); (575, 0, 165); (576, 0, 165); (577, 0, 165); (578, 0, 165)];
  [(62, 1, 165)];
  [(318, 8, 7); (319, 8, 7)];
  [];

  [(57, 1, 169); (58, 0, 169); (59, 0, 169); (60, 0, 169); (60, 2, 168); (61, 0, 169); (62, 0, 165); (63, 0, 165); (64, 0, 167); (65, 0, 165); (66, 0, 165); (502, 0, 165); (503, 0, 165); (504, 0, 165); (505, 0, 165); (506, 0, 165); (507, 0, 165); (508, 0, 165); (509, 0, 165); (510, 0, 165); (511, 0, 165); (512, 0, 165); (513, 0, 165); (514, 0, 165); (515, 0, 165); (516, 0, 165); (517, 0, 165); (518, 0, 165); (519, 0, 165); (520, 0, 165); (521, 0, 165); (522, 0, 165); (523, 0, 165); (524, 0, 165); (525, 0, 165); (526, 0, 165); (527, 0, 165); (528, 0, 165); (529, 0, 165); (530, 0, 165); (531, 0, 165); (532, 0, 165); (533, 0, 165); (534, 0, 165); (535, 0, 165); (536, 0, 165); (537, 0, 165); (538, 0, 165); (539, 0, 165); (540, 0, 165); (541, 0, 165); (542, 0, 165); (543, 0, 165); (544, 0, 165); (545, 0, 165); (546, 0, 165); (547, 0, 165); (548, 0, 165); (549, 0, 165); (550, 0, 165); (551, 0, 165); (552, 0, 165); (553, 0, 165); (554, 0, 165); (555, 0, 165); (556, 0, 165); (557, 0, 165); (558, 0, 165); (559, 0, 165); (560, 0, 165); (561, 0, 165); (562, 0, 165); (563, 0, 165); (564, 0, 165); (565, 0, 165); (566, 0, 165); (567, 0, 165); (568, 0, 165); (569, 0, 165); (570, 0, 165); (571, 0, 165); (572, 0, 165); (573, 0, 165); (574, 0, 165); (575, 0, 165); (576, 0, 165); (577, 0, 165); (578, 0, 165)];
  [(5, 3, 34)];
  [(57, 2, 168)];
  [(61, 2, 168)];
  [(63, 2, 165)];

  [(10, 0, 44); (11, 0, 44); (67, 0, 44); (68, 0, 44); (69, 0, 44); (93, 0, 69); (94, 0, 69); (112, 0, 44); (113, 0, 69); (114, 0, 69); (115, 0, 45); (116, 0, 45); (195, 0, 69); (196, 0, 69); (197, 0, 69); (200, 0, 69); (207, 0, 71); (212, 0, 69); (213, 0, 69); (214, 0, 69); (215, 0, 69); (216, 0, 69); (217, 0, 69); (218, 0, 69); (219, 0, 69); (220, 0, 69); (221, 0, 69); (222, 0, 69); (223, 0, 69); (224, 0, 69); (225, 0, 69); (226, 0, 69); (227, 0, 69); (228, 0, 69); (229, 0, 69); (230, 0, 69); (231, 0, 69); (232, 0, 69); (233, 0, 69); (234, 0, 69); (235, 0, 69); (236, 0, 69); (237, 0, 69); (238, 0, 69); (239, 0, 69); (240, 0, 69); (241, 0, 69); (242, 0, 69); (243, 0, 69); (244, 0, 69); (245, 0, 69); (246, 0, 69); (247, 0, 69); (248, 0, 70); (284, 0, 69); (287, 0, 69); (288, 0, 69); (295, 0, 69); (304, 0, 69); (305, 0, 69); (306, 0, 69); (311, 0, 69); (312, 0, 69); (313, 0, 69); (314, 0, 69); (319, 9, 7); (324, 0, 30); (325, 0, 30); (326, 0, 30); (327, 0, 30); (328, 0, 30); (329, 0, 30); (330, 0, 30); (331, 0, 30); (332, 0, 30); (333, 0, 70); (334, 0, 69); (335, 0, 69); (336, 0, 69); (337, 0, 70); (338, 0, 69); (339, 0, 69); (346, 0, 70); (347, 0, 69); (348, 0, 70); (349, 0, 70); (350, 0, 70); (351, 0, 46); (360, 0, 69); (372, 0, 69); (373, 0, 69); (380, 0, 69); (381, 0, 69); (382, 0, 69); (383, 0, 69); (385, 0, 69); (386, 0, 69); (387, 0, 69); (388, 0, 69); (389, 0, 69); (390, 0, 69); (391, 0, 69); (392, 0, 69); (393, 0, 69); (394, 0, 69); (395, 0, 69); (396, 0, 69); (397, 0, 69); (398, 0, 69); (399, 0, 69); (400, 0, 69); (401, 0, 69); (402, 0, 69); (403, 0, 69); (404, 0, 69); (405, 0, 69); (406, 0, 69); (407, 0, 70); (408, 0, 70); (409, 0, 70); (410, 0, 70); (411, 0, 69); (412, 0, 69); (413, 0, 69); (414, 0, 69); (497, 0, 72); (498, 0, 67)];
  [];
  [(60, 3, 168)];
  [(319, 10, 7); (325, 1, 30)];

  [(10, 0, 44); (11, 0, 44); (67, 0, 44); (68, 0, 44); (69, 0, 44); (93, 0, 69); (94, 0, 69); (112, 0, 44); (113, 0, 69); (114, 0, 69); (115, 0, 45); (116, 0, 45); (195, 0, 69); (196, 0, 69); (197, 0, 69); (200, 0, 69); (207, 0, 71); (212, 0, 69); (213, 0, 69); (214, 0, 69); (215, 0, 69); (216, 0, 69); (217, 0, 69); (218, 0, 69); (219, 0, 69); (220, 0, 69); (221, 0, 69); (222, 0, 69); (223, 0, 69); (224, 0, 69); (225, 0, 69); (226, 0, 69); (227, 0, 69); (228, 0, 69); (229, 0, 69); (230, 0, 69); (231, 0, 69); (232, 0, 69); (233, 0, 69); (234, 0, 69); (235, 0, 69); (236, 0, 69); (237, 0, 69); (238, 0, 69); (239, 0, 69); (240, 0, 69); (241, 0, 69); (242, 0, 69); (243, 0, 69); (244, 0, 69); (245, 0, 69); (246, 0, 69); (247, 0, 69); (248, 0, 70); (284, 0, 69); (287, 0, 69); (288, 0, 69); (295, 0, 69); (304, 0, 69); (305, 0, 69); (306, 0, 69); (311, 0, 69); (312, 0, 69); (313, 0, 69); (314, 0, 69); (325, 2, 30); (326, 0, 30); (327, 0, 30); (328, 0, 30); (329, 0, 30); (330, 0, 30); (331, 0, 30); (332, 0, 30); (333, 0, 70); (334, 0, 69); (335, 0, 69); (336, 0, 69); (337, 0, 70); (338, 0, 69); (339, 0, 69); (346, 0, 70); (347, 0, 69); (348, 0, 70); (349, 0, 70); (350, 0, 70); (351, 0, 46); (360, 0, 69); (372, 0, 69); (373, 0, 69); (380, 0, 69); (381, 0, 69); (382, 0, 69); (383, 0, 69); (385, 0, 69); (386, 0, 69); (387, 0, 69); (388, 0, 69); (389, 0, 69); (390, 0, 69); (391, 0, 69); (392, 0, 69); (393, 0, 69); (394, 0, 69); (395, 0, 69); (396, 0, 69); (397, 0, 69); (398, 0, 69); (399, 0, 69); (400, 0, 69); (401, 0, 69); (402, 0, 69); (403, 0, 69); (404, 0, 69); (405, 0, 69); (406, 0, 69); (407, 0, 70); (408, 0, 70); (409, 0, 70); (410, 0, 70); (411, 0, 69); (412, 0, 69); (413, 0, 69); (414, 0, 69); (497, 0, 72); (498, 0, 67)]
].
(** The first tokens of the nonterminals; those that can be empty. *)
Definition cert_first : list (Z * N) := [
  (153, 713623846352979940529142984724747568191373312%N); (154, 713623846352979940529142984724747568191373312%N);
  (155, 713623846352979940529142984724747568191373312%N); (156, 21267647932558653966460912964485513216%N);
  (157, 713623846355576088958410398539012817429725184%N); (158, 713623846352979940529142984724747568191373312%N);
  (159, 2596148429267413814265249238351872%N); (160, 713623846352979940529142984724747568191373312%N);
  (161, 713623846355576088958410398539021613522747392%N); (162, 8796093022208%N); (163, 318767104%N); (164, 318767104%N); (165, 50331648%N);
  (166, 50331648%N); (167, 16777216%N); (168, 16777216%N); (169, 618970019643816037356404736%N); (170, 10384594336039674899751130108002304%N);
  (171, 33554432%N); (172, 618970019643816037356404736%N); (173, 33554432%N); (174, 16777216%N); (175, 618970019643816037356404736%N);
  (176, 16777216%N); (177, 618970019642690137449562112%N); (178, 268435456%N); (179, 618970019643816037356404736%N);
  (180, 1329227995784915872903807060280344576%N); (181, 713798412577773908662357226918276184949129216%N);
  (182, 713798412577773908662357226918276184949129216%N); (183, 340282366920938463463374607431768211456%N);
  (184, 713798072295406987723893763543668753180917760%N); (185, 713798072295406987723893763543668753130586112%N);
  (186, 713798072295406987723893763543668753130586112%N); (187, 713623846352979940529142984724747568195567616%N);
  (188, 713623846352979940529142984724747568191373312%N); (189, 713623846352979940529142984724747568195567616%N);
  (197, 713623846352979940529142984724747568191373312%N); (198, 713623846352979940529142984724747568191373312%N);
  (199, 713623846352979940529142984724747568191373312%N); (200, 21267647932558653966460912964485513216%N);
  (201, 2140871630776977210866077659043167949397428976%N); (202, 713623846355576088958410398539012817429725184%N);
  (203, 2140871539058939821587428954174242704574119936%N); (204, 713623846352979940529142984724747568191373312%N);
  (205, 1427247692705959881058285969449495136382746624%N); (206, 713623846352979940529142984724747568191373312%N);
  (207, 713623846352979940529142984724747568191373312%N); (208, 21267647932558653966460912964485513216%N);
  (209, 2140871880632771367963840796015965056161284096%N); (210, 2140871880632771367963840796015965056161284096%N);
  (211, 2140871880632771367963840796015965056161284096%N); (212, 2140871880632771367963840796015965056161284096%N);
  (213, 713623846352979940529142984724747568195567616%N); (214, 713623846352979940529142984724747568195567616%N); (215, 18889465931478580854784%N);
  (216, 713623846352979940529142984724747568191373312%N); (217, 2140871539058939821587428954174242704574119936%N);
  (218, 21267647932558653966479138469227528192%N); (219, 70368744177664%N); (220, 713623851672488072098073890154241058551103488%N);
  (221, 21267647932558653966460912964485513216%N); (222, 22300745198530623141535718272648361505980416%N);
  (223, 22300745198530623141535718272648361505980416%N); (224, 348449143727040986586495598010130648530944%N);
  (225, 1427247692705959881058285969449495136382746624%N); (226, 18155135997837312%N); (227, 0%N);
  (228, 713623846352979940529142984724747568191373312%N); (229, 21267647932558653966460912964485513216%N);
  (230, 21267647932558653966460912964485513216%N); (231, 21267647932558653966460912964485513216%N);
  (232, 1427247692705959881058285969449495136382746640%N); (233, 1427247692705959881058285969449495136382746640%N); (234, 16%N);
  (235, 1427247692705959881058285969449495136382746624%N); (236, 65536%N); (237, 1181168081504074465280%N); (238, 2305843009213693952%N);
  (239, 2140871539058939821587433677693647078826180608%N); (240, 1152921504606846976%N); (241, 2140871539058939821587428954174242704574119936%N);
  (242, 4722366482869645213696%N); (243, 2140871539058939821587428954174242704574119936%N); (244, 2140871539058939821587428954174242704574119936%N);
  (245, 2140871539058939821587428954174242704574119936%N); (246, 713623846352979940529142984724747568191373312%N);
  (247, 2140871539058939821587428954174242704574119936%N); (248, 2140871539058939821587428954174242704574119936%N);
  (249, 2140871539058939821587428954174242704574119936%N); (250, 2140871539058939821587428954174242704574119936%N);
  (251, 2140871539058939821587428954174242704574119936%N); (252, 713623846352979940529142984724747568191373312%N);
  (253, 2140871539058939821587428954174242704574119936%N); (254, 713623846352979940529142984724747568191373312%N);
  (255, 2140871539058939821587428954174242704574119936%N); (256, 2140871880632771367963840796015965056161284096%N);
  (257, 2140871880632771367963840796015965056161284096%N); (258, 713623846352979940529142984724747568191373312%N);
  (259, 713623846352979940529142984724747568191373312%N); (260, 713623846352979940529142984724747568191373312%N);
  (261, 1427247692705959881058285969449495136382746624%N); (262, 0%N); (263, 2140871880632771367963840796015965056161284096%N);
  (264, 713624187926811486905554826566469919774343168%N); (265, 1427247692705959881058285969449495136382746624%N);
  (266, 2143670043842671622688125322083677506190183152%N); (267, 2143670043842671622688125322083677506190183152%N);
  (270, 21267647932558653966460912964485513216%N); (271, 2143670043842671622688125322083677506190183152%N); (272, 549755813888%N);
  (273, 1298074214633716130504660937080832%N); (274, 75557863725914323419136%N); (275, 1427247692705959881058285969449495136382746624%N);
  (276, 1427247692705959881058285969449495136382746624%N); (277, 48%N); (278, 144115188075855872%N);
  (279, 1427247698022871864197949461064723377504124928%N); (280, 1427247692705959881058285969449495136382746624%N);
  (281, 1427247692705959881058285969449495136382746624%N); (282, 79228162514264337593543950336%N); (283, 137438953472%N);
  (284, 1427247692705959881058285969449495136382746624%N); (285, 1427247692705959881058285969449495136382746624%N);
  (286, 77371252455336267181195264%N); (287, 17179869184%N); (288, 633825300114114700748351602688%N);
  (289, 2140871885949683351103504287631228481654751232%N); (290, 2140871880632771367963840796016000240533372928%N);
  (291, 2140871880632771367963840796016000240533372928%N); (292, 633825300114114700748351602688%N); (293, 1267650600228229401496703205376%N);
  (294, 1267650600228229401496703205376%N); (295, 4398046511104%N); (296, 1427247692705959881058285969449495136382746624%N);
  (297, 1427247692705959881058285969449495136382746624%N); (298, 1427247692705959881058285969449495136382746624%N);
  (299, 1427247692705959881058285969449495136382746624%N); (300, 340282366920938463463374607431768211456%N);
  (301, 340282366920938463463374607431768211456%N); (302, 340282366920938463463374607431768211456%N); (303, 65536%N);
  (304, 2140871539058939821587428954174242704574119952%N); (305, 20769227048220567646290790678790144%N); (306, 19342813113834066795298816%N);
  (307, 21267647932558653966460912964485513216%N); (308, 1427247692705959881058285969449495136382746640%N);
  (309, 1427247692705959881058285969449495136382746640%N); (310, 1427247692705959881058285969449495136382746624%N); (311, 16%N);
  (312, 1427247692705959881058285969449495136382746624%N); (313, 158456325028528675187087900672%N); (314, 309485009821345068724781056%N);
  (315, 10889035741470030830827987437816582766592%N); (316, 1393796574908163946345982392040522594123776%N);
  (317, 1393796574908163946345982392040522594123776%N); (318, 393216%N); (319, 316912650057057350374175801344%N); (320, 9007199254740992%N);
  (321, 4611686018427387904%N); (322, 324518553658426726783156020576256%N); (323, 1048576%N); (324, 281474976710656%N);
  (325, 649037107316853453566312041152512%N); (326, 562949953421312%N); (327, 4503599627370496%N); (328, 1204815715093131309610056247737843712%N);
  (329, 1204815715093131309610054048714588160%N); (330, 2199023255552%N); (331, 2140871880632771367963840796015965056161284096%N);
  (332, 1901475900342344102245054808064%N); (333, 85070591730234615865843651857942052864%N); (334, 2140871646727713160285068133907078177503578864%N);
  (335, 2140871625460065227726414167427939708276050672%N); (336, 2140871625460065227726414167427939708276050672%N);
  (337, 2140871625460065227726414167427939708276050672%N); (338, 2140871625460065227726414167427939706128567024%N);
  (339, 2140871625460065227726414167427939706128567024%N); (340, 2140871625460065227726414167427939706128567024%N);
  (341, 2140871625460065227726414167427939706128567024%N); (342, 2140871625460065227726414167427939706128567024%N);
  (343, 2140871625460065227726414167427939706128567024%N); (344, 288230376151711744%N); (345, 44601490402253543141606264173827219341180928%N);
  (346, 89202980794122492566293988818045274670759936%N); (347, 2140871625460065227726414167427939706128567024%N);
  (348, 2140871540389473497491798301584287848186514160%N); (349, 2140871539060237895802062670304747382692121328%N); (350, 9444732965739290427392%N);
  (351, 9444732965739290427392%N); (352, 2140871539060237895803271596124361994686958320%N); (353, 2140871539060237895803271596124361994686958320%N);
  (354, 2140872900189705579556520986712984407172451056%N); (355, 2140871539060237895803271596124361994686958320%N);
  (356, 2140871539060237895802667133214554680099605232%N); (357, 5070602400912917605986812821504%N); (359, 18446744073709551616%N);
  (360, 1329227995784915872903807060280344576%N); (361, 85070591730234615865843651857942052864%N); (362, 21267647932558653966460912964485513216%N);
  (363, 1427247692705959881058285969449495136382746624%N); (364, 1427247692705959881058285969449495136382746624%N);
  (365, 85070591740757106199769384195121479680%N); (366, 85070591730234615865843651857942052864%N); (367, 10522490333925732337179426816%N);
  (368, 0%N); (369, 2535301200456458802993406410752%N); (370, 5444517870735015415413993718908291383296%N);
  (371, 2140871539058939821587428954174242704574119984%N); (372, 713623846352979940529142984724747568191373312%N);
  (373, 1427247692705959881058285969449495136382746624%N); (374, 1427247692705959881058285969449495136382746624%N);
  (375, 713623846352979940529142984724747568191373312%N); (376, 0%N); (377, 713623847723543467230600515744663687806320640%N);
  (400, 2140871880632771367963840796015965056161284096%N); (401, 713624187926811486905554826566469902594473984%N);
  (402, 2140871539060237895802062670304747365512252144%N); (403, 2140871539058939821587428954174242704574119936%N);
  (404, 2140871539058939821587428954174242704574119936%N); (405, 1427247692705959881058285969449495136382746624%N);
  (406, 2140871880632771367963840796015965056161284096%N); (407, 713623846352979940529142984724747568191373312%N);
  (408, 2140871880632771367963840796015965056161284096%N)
].
Definition cert_nullable : list Z := [
  169; 170; 172; 175; 177; 179; 180; 185; 220; 224; 227; 229; 236; 237; 238; 239; 240; 241; 242; 243; 303; 305; 317; 362; 365; 366; 367; 370
].

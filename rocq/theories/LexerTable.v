(** Generated by tools/gen_lexer.py from /repo/src/compiler/autogen_copy/asn_compiler.hpp 11598-24032: the automaton of yylex.
    Entry k is the code at label yyk; label 1 stands for the start.  Rules are numbered in the order of asn_compiler.yacc. *)
From Coq Require Import String FSets.FMapPositive.
From Verif Require Import Base Lexer.
Local Open Scope nat_scope.

Definition yy_code : list (positive * label_code) := [
  (1%positive, Code MRead (TSwitch [([(0, 0)%Z], 2%positive); ([(8, 9)%Z; (11, 12)%Z; (32, 32)%Z], 6%positive); ([(10, 10)%Z], 8%positive); ([(13, 13)%Z], 10%positive); ([(33, 33)%Z], 11%positive); ([(34, 34)%Z], 13%positive); ([(38, 38)%Z], 15%positive); ([(39, 39)%Z], 16%positive); ([(40, 40)%Z], 18%positive); ([(41, 41)%Z], 20%positive); ([(44, 44)%Z], 22%positive); ([(45, 45)%Z], 24%positive); ([(46, 46)%Z], 26%positive); ([(47, 47)%Z], 28%positive); ([(48, 57)%Z], 29%positive); ([(58, 58)%Z], 32%positive); ([(59, 59)%Z], 34%positive); ([(60, 60)%Z], 36%positive); ([(64, 64)%Z], 38%positive); ([(65, 65)%Z], 40%positive); ([(66, 66)%Z], 42%positive); ([(67, 67)%Z], 43%positive); ([(68, 68)%Z], 44%positive); ([(69, 69)%Z], 45%positive); ([(70, 70)%Z], 46%positive); ([(71, 71)%Z], 47%positive); ([(72, 72)%Z; (74, 76)%Z; (81, 81)%Z; (88, 90)%Z], 48%positive); ([(73, 73)%Z], 50%positive); ([(77, 77)%Z], 51%positive); ([(78, 78)%Z], 52%positive); ([(79, 79)%Z], 53%positive); ([(80, 80)%Z], 54%positive); ([(82, 82)%Z], 55%positive); ([(83, 83)%Z], 56%positive); ([(84, 84)%Z], 57%positive); ([(85, 85)%Z], 58%positive); ([(86, 86)%Z], 59%positive); ([(87, 87)%Z], 60%positive); ([(91, 91)%Z], 61%positive); ([(93, 93)%Z], 63%positive); ([(94, 94)%Z], 65%positive); ([(97, 122)%Z], 67%positive); ([(123, 123)%Z], 70%positive); ([(124, 124)%Z], 72%positive); ([(125, 125)%Z], 74%positive)] 4));
  (2%positive, Code MInc (TAct 105));
  (4%positive, Code MInc (TGoto 5));
  (5%positive, Code MNone (TAct 127));
  (6%positive, Code MInc (TAct 107));
  (8%positive, Code MInc (TAct 106));
  (10%positive, Code MAdv (TSwitch [([(10, 10)%Z], 8%positive)] 5));
  (11%positive, Code MInc (TAct 123));
  (13%positive, Code MAdv (TSwitch [([(34, 34)%Z], 76%positive); ([(39, 39)%Z], 78%positive); ([(92, 92)%Z], 79%positive)] 13));
  (15%positive, Code MAdv (TSwitch [([(65, 90)%Z], 81%positive); ([(97, 122)%Z], 84%positive)] 5));
  (16%positive, Code MAdv (TSwitch [([(34, 34)%Z], 76%positive); ([(39, 39)%Z], 87%positive); ([(48, 49)%Z], 16%positive); ([(50, 57)%Z; (65, 70)%Z; (97, 102)%Z], 88%positive); ([(92, 92)%Z], 79%positive)] 13));
  (18%positive, Code MInc (TAct 113));
  (20%positive, Code MInc (TAct 114));
  (22%positive, Code MInc (TAct 119));
  (24%positive, Code MAdv (TSwitch [([(45, 45)%Z], 90%positive); ([(48, 57)%Z], 93%positive)] 25));
  (25%positive, Code MNone (TAct 120));
  (26%positive, Code MAdv (TSwitch [([(46, 46)%Z], 96%positive)] 27));
  (27%positive, Code MNone (TAct 121));
  (28%positive, Code MAdv (TSwitch [([(42, 42)%Z], 98%positive)] 5));
  (29%positive, Code (MMark 0) (TSwitch [([(46, 46)%Z], 100%positive); ([(48, 57)%Z], 29%positive)] 31));
  (31%positive, Code MNone (TAct 96));
  (32%positive, Code (MMark 1) (TSwitch [([(58, 58)%Z], 102%positive)] 33));
  (33%positive, Code MNone (TAct 117));
  (34%positive, Code MInc (TAct 118));
  (36%positive, Code MInc (TAct 124));
  (38%positive, Code MInc (TAct 126));
  (40%positive, Code (MMark 2) (TSwitch [([(66, 66)%Z], 104%positive); ([(76, 76)%Z], 105%positive); ([(78, 78)%Z], 106%positive); ([(80, 80)%Z], 107%positive); ([(85, 85)%Z], 108%positive)] 49));
  (41%positive, Code MNone (TAct 101));
  (42%positive, Code (MMark 2) (TSwitch [([(69, 69)%Z], 109%positive); ([(73, 73)%Z], 110%positive); ([(77, 77)%Z], 111%positive); ([(79, 79)%Z], 112%positive); ([(89, 89)%Z], 113%positive)] 49));
  (43%positive, Code (MMark 2) (TSwitch [([(72, 72)%Z], 115%positive); ([(76, 76)%Z], 116%positive); ([(79, 79)%Z], 117%positive)] 49));
  (44%positive, Code (MMark 2) (TSwitch [([(65, 65)%Z], 118%positive); ([(69, 69)%Z], 119%positive); ([(85, 85)%Z], 120%positive)] 49));
  (45%positive, Code (MMark 2) (TSwitch [([(77, 77)%Z], 121%positive); ([(78, 78)%Z], 122%positive); ([(88, 88)%Z], 123%positive)] 49));
  (46%positive, Code (MMark 2) (TSwitch [([(65, 65)%Z], 124%positive); ([(82, 82)%Z], 125%positive)] 49));
  (47%positive, Code (MMark 2) (TSwitch [([(101, 101)%Z], 126%positive); ([(114, 114)%Z], 127%positive)] 49));
  (48%positive, Code (MMark 2) (TGoto 49));
  (49%positive, Code MNone (TSwitch [([(45, 45)%Z], 103%positive); ([(48, 57)%Z; (65, 90)%Z; (95, 95)%Z; (97, 122)%Z], 48%positive)] 41));
  (50%positive, Code (MMark 2) (TSwitch [([(65, 65)%Z], 128%positive); ([(68, 68)%Z], 129%positive); ([(77, 77)%Z], 130%positive); ([(78, 78)%Z], 131%positive); ([(83, 83)%Z], 132%positive)] 49));
  (51%positive, Code (MMark 2) (TSwitch [([(65, 65)%Z], 133%positive); ([(73, 73)%Z], 134%positive)] 49));
  (52%positive, Code (MMark 2) (TSwitch [([(79, 79)%Z], 135%positive); ([(85, 85)%Z], 136%positive); ([(117, 117)%Z], 137%positive)] 49));
  (53%positive, Code (MMark 2) (TSwitch [([(66, 66)%Z], 138%positive); ([(67, 67)%Z], 139%positive); ([(70, 70)%Z], 140%positive); ([(73, 73)%Z], 142%positive); ([(80, 80)%Z], 143%positive); ([(98, 98)%Z], 144%positive)] 49));
  (54%positive, Code (MMark 2) (TSwitch [([(65, 65)%Z], 145%positive); ([(68, 68)%Z], 146%positive); ([(76, 76)%Z], 147%positive); ([(82, 82)%Z], 148%positive); ([(114, 114)%Z], 149%positive)] 49));
  (55%positive, Code (MMark 2) (TSwitch [([(69, 69)%Z], 150%positive)] 49));
  (56%positive, Code (MMark 2) (TSwitch [([(69, 69)%Z], 151%positive); ([(73, 73)%Z], 152%positive); ([(84, 84)%Z], 153%positive); ([(89, 89)%Z], 154%positive)] 49));
  (57%positive, Code (MMark 2) (TSwitch [([(54, 54)%Z], 155%positive); ([(65, 65)%Z], 156%positive); ([(73, 73)%Z], 157%positive); ([(82, 82)%Z], 158%positive); ([(89, 89)%Z], 159%positive); ([(101, 101)%Z], 160%positive)] 49));
  (58%positive, Code (MMark 2) (TSwitch [([(78, 78)%Z], 161%positive); ([(84, 84)%Z], 162%positive); ([(110, 110)%Z], 163%positive)] 49));
  (59%positive, Code (MMark 2) (TSwitch [([(105, 105)%Z], 164%positive)] 49));
  (60%positive, Code (MMark 2) (TSwitch [([(73, 73)%Z], 165%positive)] 49));
  (61%positive, Code MInc (TAct 115));
  (63%positive, Code MInc (TAct 116));
  (65%positive, Code MInc (TAct 125));
  (67%positive, Code (MMark 3) (TSwitch [([(45, 45)%Z], 166%positive); ([(48, 57)%Z; (65, 90)%Z; (95, 95)%Z; (97, 122)%Z], 67%positive)] 69));
  (69%positive, Code MNone (TAct 102));
  (70%positive, Code MInc (TAct 111));
  (72%positive, Code MInc (TAct 122));
  (74%positive, Code MInc (TAct 112));
  (76%positive, Code MAdv (TSwitch [([(34, 34)%Z], 13%positive)] 77));
  (77%positive, Code MNone (TAct 98));
  (78%positive, Code MInc (TGoto 77));
  (79%positive, Code MAdv (TSwitch [([(34, 34)%Z], 167%positive); ([(92, 92)%Z], 79%positive)] 13));
  (81%positive, Code (MMark 4) (TSwitch [([(45, 45)%Z], 169%positive); ([(48, 57)%Z; (65, 90)%Z; (95, 95)%Z; (97, 122)%Z], 81%positive)] 83));
  (83%positive, Code MNone (TAct 103));
  (84%positive, Code (MMark 5) (TSwitch [([(45, 45)%Z], 170%positive); ([(48, 57)%Z; (65, 90)%Z; (95, 95)%Z; (97, 122)%Z], 84%positive)] 86));
  (86%positive, Code MNone (TAct 104));
  (87%positive, Code MAdv (TSwitch [([(66, 66)%Z], 171%positive); ([(72, 72)%Z], 173%positive)] 77));
  (88%positive, Code MAdv (TSwitch [([(34, 34)%Z], 76%positive); ([(39, 39)%Z], 175%positive); ([(48, 57)%Z; (65, 70)%Z; (97, 102)%Z], 88%positive); ([(92, 92)%Z], 79%positive)] 13));
  (90%positive, Code MAdv (TSwitch [([(10, 10)%Z; (13, 13)%Z], 92%positive); ([(45, 45)%Z], 176%positive)] 90));
  (92%positive, Code MNone (TAct 93));
  (93%positive, Code MAdv (TSwitch [([(48, 57)%Z], 93%positive)] 95));
  (95%positive, Code MNone (TAct 97));
  (96%positive, Code MAdv (TSwitch [([(46, 46)%Z], 177%positive)] 97));
  (97%positive, Code MNone (TAct 110));
  (98%positive, Code MAdv (TSwitch [([(42, 42)%Z], 179%positive)] 98));
  (100%positive, Code MAdv (TSwitch [([(48, 57)%Z], 181%positive)] 101));
  (101%positive, Code MNone (TRestore [(0, 31%positive); (1, 33%positive); (2, 41%positive); (3, 69%positive); (4, 83%positive); (5, 86%positive); (6, 114%positive); (7, 141%positive); (8, 188%positive); (9, 190%positive); (10, 195%positive); (11, 209%positive); (12, 226%positive); (13, 228%positive); (14, 239%positive); (15, 248%positive); (16, 283%positive); (17, 296%positive); (18, 310%positive); (19, 323%positive); (20, 328%positive); (21, 333%positive); (22, 335%positive); (23, 337%positive); (24, 349%positive); (25, 355%positive); (26, 361%positive); (27, 378%positive); (28, 396%positive); (29, 415%positive); (30, 424%positive); (31, 432%positive); (32, 445%positive); (33, 467%positive); (34, 480%positive); (35, 482%positive); (36, 488%positive); (37, 500%positive); (38, 507%positive); (39, 512%positive); (40, 517%positive); (41, 526%positive); (42, 528%positive); (43, 533%positive); (44, 540%positive); (45, 544%positive); (46, 547%positive); (47, 549%positive); (48, 560%positive); (49, 576%positive); (50, 578%positive); (51, 582%positive); (52, 585%positive); (53, 592%positive); (54, 594%positive); (55, 596%positive); (56, 604%positive); (57, 610%positive); (58, 612%positive); (59, 625%positive); (60, 627%positive); (61, 629%positive); (62, 631%positive); (63, 635%positive); (64, 644%positive); (65, 657%positive); (66, 662%positive); (67, 670%positive); (68, 673%positive); (69, 677%positive); (70, 683%positive); (71, 698%positive); (72, 704%positive); (73, 706%positive); (74, 708%positive); (75, 725%positive); (76, 738%positive); (77, 740%positive); (78, 742%positive); (79, 745%positive); (80, 751%positive); (81, 760%positive); (82, 762%positive); (83, 765%positive); (84, 768%positive); (85, 771%positive); (86, 776%positive); (87, 780%positive); (88, 785%positive); (89, 792%positive); (90, 794%positive); (91, 797%positive); (92, 800%positive); (93, 803%positive); (94, 805%positive); (95, 807%positive); (96, 809%positive)] 811));
  (102%positive, Code MAdv (TSwitch [([(61, 61)%Z], 184%positive)] 101));
  (103%positive, Code MAdv (TSwitch [([(48, 57)%Z; (65, 90)%Z; (95, 95)%Z; (97, 122)%Z], 48%positive)] 101));
  (104%positive, Code (MMark 2) (TSwitch [([(83, 83)%Z], 186%positive)] 49));
  (105%positive, Code (MMark 2) (TSwitch [([(76, 76)%Z], 187%positive)] 49));
  (106%positive, Code (MMark 2) (TSwitch [([(89, 89)%Z], 189%positive)] 49));
  (107%positive, Code (MMark 2) (TSwitch [([(80, 80)%Z], 191%positive)] 49));
  (108%positive, Code (MMark 2) (TSwitch [([(84, 84)%Z], 192%positive)] 49));
  (109%positive, Code (MMark 2) (TSwitch [([(71, 71)%Z], 193%positive)] 49));
  (110%positive, Code (MMark 2) (TSwitch [([(84, 84)%Z], 194%positive)] 49));
  (111%positive, Code (MMark 2) (TSwitch [([(80, 80)%Z], 196%positive)] 49));
  (112%positive, Code (MMark 2) (TSwitch [([(79, 79)%Z], 197%positive)] 49));
  (113%positive, Code (MMark 6) (TSwitch [([(45, 45)%Z], 103%positive); ([(48, 57)%Z; (65, 90)%Z; (95, 95)%Z; (97, 122)%Z], 48%positive)] 114));
  (114%positive, Code MNone (TAct 10));
  (115%positive, Code (MMark 2) (TSwitch [([(65, 65)%Z], 198%positive); ([(79, 79)%Z], 199%positive)] 49));
  (116%positive, Code (MMark 2) (TSwitch [([(65, 65)%Z], 200%positive)] 49));
  (117%positive, Code (MMark 2) (TSwitch [([(77, 77)%Z], 201%positive); ([(78, 78)%Z], 202%positive)] 49));
  (118%positive, Code (MMark 2) (TSwitch [([(84, 84)%Z], 203%positive)] 49));
  (119%positive, Code (MMark 2) (TSwitch [([(70, 70)%Z], 204%positive)] 49));
  (120%positive, Code (MMark 2) (TSwitch [([(82, 82)%Z], 205%positive)] 49));
  (121%positive, Code (MMark 2) (TSwitch [([(66, 66)%Z], 206%positive)] 49));
  (122%positive, Code (MMark 2) (TSwitch [([(67, 67)%Z], 207%positive); ([(68, 68)%Z], 208%positive); ([(85, 85)%Z], 210%positive)] 49));
  (123%positive, Code (MMark 2) (TSwitch [([(67, 67)%Z], 211%positive); ([(80, 80)%Z], 212%positive); ([(84, 84)%Z], 213%positive)] 49));
  (124%positive, Code (MMark 2) (TSwitch [([(76, 76)%Z], 214%positive)] 49));
  (125%positive, Code (MMark 2) (TSwitch [([(79, 79)%Z], 215%positive)] 49));
  (126%positive, Code (MMark 2) (TSwitch [([(110, 110)%Z], 216%positive)] 49));
  (127%positive, Code (MMark 2) (TSwitch [([(97, 97)%Z], 217%positive)] 49));
  (128%positive, Code (MMark 2) (TSwitch [([(53, 53)%Z], 218%positive)] 49));
  (129%positive, Code (MMark 2) (TSwitch [([(69, 69)%Z], 219%positive)] 49));
  (130%positive, Code (MMark 2) (TSwitch [([(80, 80)%Z], 220%positive)] 49));
  (131%positive, Code (MMark 2) (TSwitch [([(67, 67)%Z], 221%positive); ([(83, 83)%Z], 222%positive); ([(84, 84)%Z], 223%positive)] 49));
  (132%positive, Code (MMark 2) (TSwitch [([(79, 79)%Z], 224%positive)] 49));
  (133%positive, Code (MMark 2) (TSwitch [([(88, 88)%Z], 225%positive)] 49));
  (134%positive, Code (MMark 2) (TSwitch [([(78, 78)%Z], 227%positive)] 49));
  (135%positive, Code (MMark 2) (TSwitch [([(84, 84)%Z], 229%positive)] 49));
  (136%positive, Code (MMark 2) (TSwitch [([(76, 76)%Z], 230%positive)] 49));
  (137%positive, Code (MMark 2) (TSwitch [([(109, 109)%Z], 231%positive)] 49));
  (138%positive, Code (MMark 2) (TSwitch [([(74, 74)%Z], 232%positive)] 49));
  (139%positive, Code (MMark 2) (TSwitch [([(84, 84)%Z], 233%positive)] 49));
  (140%positive, Code (MMark 7) (TSwitch [([(45, 45)%Z], 103%positive); ([(48, 57)%Z; (65, 90)%Z; (95, 95)%Z; (97, 122)%Z], 48%positive)] 141));
  (141%positive, Code MNone (TAct 58));
  (142%positive, Code (MMark 2) (TSwitch [([(68, 68)%Z], 234%positive)] 49));
  (143%positive, Code (MMark 2) (TSwitch [([(84, 84)%Z], 235%positive)] 49));
  (144%positive, Code (MMark 2) (TSwitch [([(106, 106)%Z], 236%positive)] 49));
  (145%positive, Code (MMark 2) (TSwitch [([(84, 84)%Z], 237%positive)] 49));
  (146%positive, Code (MMark 2) (TSwitch [([(86, 86)%Z], 238%positive)] 49));
  (147%positive, Code (MMark 2) (TSwitch [([(85, 85)%Z], 240%positive)] 49));
  (148%positive, Code (MMark 2) (TSwitch [([(69, 69)%Z], 241%positive); ([(73, 73)%Z], 242%positive)] 49));
  (149%positive, Code (MMark 2) (TSwitch [([(105, 105)%Z], 243%positive)] 49));
  (150%positive, Code (MMark 2) (TSwitch [([(65, 65)%Z], 244%positive); ([(76, 76)%Z], 245%positive)] 49));
  (151%positive, Code (MMark 2) (TSwitch [([(81, 81)%Z], 246%positive); ([(84, 84)%Z], 247%positive)] 49));
  (152%positive, Code (MMark 2) (TSwitch [([(90, 90)%Z], 249%positive)] 49));
  (153%positive, Code (MMark 2) (TSwitch [([(82, 82)%Z], 250%positive)] 49));
  (154%positive, Code (MMark 2) (TSwitch [([(78, 78)%Z], 251%positive)] 49));
  (155%positive, Code (MMark 2) (TSwitch [([(49, 49)%Z], 252%positive)] 49));
  (156%positive, Code (MMark 2) (TSwitch [([(71, 71)%Z], 253%positive)] 49));
  (157%positive, Code (MMark 2) (TSwitch [([(77, 77)%Z], 254%positive)] 49));
  (158%positive, Code (MMark 2) (TSwitch [([(85, 85)%Z], 255%positive)] 49));
  (159%positive, Code (MMark 2) (TSwitch [([(80, 80)%Z], 256%positive)] 49));
  (160%positive, Code (MMark 2) (TSwitch [([(108, 108)%Z], 257%positive)] 49));
  (161%positive, Code (MMark 2) (TSwitch [([(73, 73)%Z], 258%positive)] 49));
  (162%positive, Code (MMark 2) (TSwitch [([(67, 67)%Z], 259%positive); ([(70, 70)%Z], 260%positive)] 49));
  (163%positive, Code (MMark 2) (TSwitch [([(105, 105)%Z], 261%positive)] 49));
  (164%positive, Code (MMark 2) (TSwitch [([(100, 100)%Z], 262%positive); ([(115, 115)%Z], 263%positive)] 49));
  (165%positive, Code (MMark 2) (TSwitch [([(84, 84)%Z], 264%positive)] 49));
  (166%positive, Code MAdv (TSwitch [([(48, 57)%Z; (65, 90)%Z; (95, 95)%Z; (97, 122)%Z], 67%positive)] 101));
  (167%positive, Code MAdv (TSwitch [([(34, 34)%Z], 167%positive); ([(39, 39)%Z], 78%positive); ([(92, 92)%Z], 79%positive)] 13));
  (169%positive, Code MAdv (TSwitch [([(48, 57)%Z; (65, 90)%Z; (95, 95)%Z; (97, 122)%Z], 81%positive)] 101));
  (170%positive, Code MAdv (TSwitch [([(48, 57)%Z; (65, 90)%Z; (95, 95)%Z; (97, 122)%Z], 84%positive)] 101));
  (171%positive, Code MInc (TAct 99));
  (173%positive, Code MInc (TAct 100));
  (175%positive, Code MAdv (TSwitch [([(72, 72)%Z], 173%positive)] 77));
  (176%positive, Code MAdv (TSwitch [([(10, 10)%Z; (13, 13)%Z], 92%positive); ([(45, 45)%Z], 265%positive)] 90));
  (177%positive, Code MInc (TAct 109));
  (179%positive, Code MAdv (TSwitch [([(42, 42)%Z], 179%positive); ([(47, 47)%Z], 267%positive)] 98));
  (181%positive, Code MAdv (TSwitch [([(48, 57)%Z], 181%positive)] 183));
  (183%positive, Code MNone (TAct 95));
  (184%positive, Code MInc (TAct 108));
  (186%positive, Code (MMark 2) (TSwitch [([(69, 69)%Z], 269%positive); ([(84, 84)%Z], 270%positive)] 49));
  (187%positive, Code (MMark 8) (TSwitch [([(45, 45)%Z], 103%positive); ([(48, 57)%Z; (65, 90)%Z; (95, 95)%Z; (97, 122)%Z], 48%positive)] 188));
  (188%positive, Code MNone (TAct 2));
  (189%positive, Code (MMark 9) (TSwitch [([(45, 45)%Z], 103%positive); ([(48, 57)%Z; (65, 90)%Z; (95, 95)%Z; (97, 122)%Z], 48%positive)] 190));
  (190%positive, Code MNone (TAct 3));
  (191%positive, Code (MMark 2) (TSwitch [([(76, 76)%Z], 271%positive)] 49));
  (192%positive, Code (MMark 2) (TSwitch [([(79, 79)%Z], 272%positive)] 49));
  (193%positive, Code (MMark 2) (TSwitch [([(73, 73)%Z], 273%positive)] 49));
  (194%positive, Code (MMark 10) (TSwitch [([(45, 45)%Z], 103%positive); ([(48, 57)%Z; (65, 90)%Z; (95, 95)%Z; (97, 122)%Z], 48%positive)] 195));
  (195%positive, Code MNone (TAct 7));
  (196%positive, Code (MMark 2) (TSwitch [([(83, 83)%Z], 274%positive)] 49));
  (197%positive, Code (MMark 2) (TSwitch [([(76, 76)%Z], 275%positive)] 49));
  (198%positive, Code (MMark 2) (TSwitch [([(82, 82)%Z], 276%positive)] 49));
  (199%positive, Code (MMark 2) (TSwitch [([(73, 73)%Z], 277%positive)] 49));
  (200%positive, Code (MMark 2) (TSwitch [([(83, 83)%Z], 278%positive)] 49));
  (201%positive, Code (MMark 2) (TSwitch [([(80, 80)%Z], 279%positive)] 49));
  (202%positive, Code (MMark 2) (TSwitch [([(83, 83)%Z], 280%positive); ([(84, 84)%Z], 281%positive)] 49));
  (203%positive, Code (MMark 2) (TSwitch [([(69, 69)%Z], 282%positive)] 49));
  (204%positive, Code (MMark 2) (TSwitch [([(65, 65)%Z], 284%positive); ([(73, 73)%Z], 285%positive)] 49));
  (205%positive, Code (MMark 2) (TSwitch [([(65, 65)%Z], 286%positive)] 49));
  (206%positive, Code (MMark 2) (TSwitch [([(69, 69)%Z], 287%positive)] 49));
  (207%positive, Code (MMark 2) (TSwitch [([(79, 79)%Z], 288%positive)] 49));
  (208%positive, Code (MMark 11) (TSwitch [([(45, 45)%Z], 103%positive); ([(48, 57)%Z; (65, 90)%Z; (95, 95)%Z; (97, 122)%Z], 48%positive)] 209));
  (209%positive, Code MNone (TAct 26));
  (210%positive, Code (MMark 2) (TSwitch [([(77, 77)%Z], 289%positive)] 49));
  (211%positive, Code (MMark 2) (TSwitch [([(69, 69)%Z], 290%positive)] 49));
  (212%positive, Code (MMark 2) (TSwitch [([(76, 76)%Z], 291%positive); ([(79, 79)%Z], 292%positive)] 49));
  (213%positive, Code (MMark 2) (TSwitch [([(69, 69)%Z], 293%positive)] 49));
  (214%positive, Code (MMark 2) (TSwitch [([(83, 83)%Z], 294%positive)] 49));
  (215%positive, Code (MMark 2) (TSwitch [([(77, 77)%Z], 295%positive)] 49));
  (216%positive, Code (MMark 2) (TSwitch [([(101, 101)%Z], 297%positive)] 49));
  (217%positive, Code (MMark 2) (TSwitch [([(112, 112)%Z], 298%positive)] 49));
  (218%positive, Code (MMark 2) (TSwitch [([(83, 83)%Z], 299%positive)] 49));
  (219%positive, Code (MMark 2) (TSwitch [([(78, 78)%Z], 300%positive)] 49));
  (220%positive, Code (MMark 2) (TSwitch [([(76, 76)%Z], 301%positive); ([(79, 79)%Z], 302%positive)] 49));
  (221%positive, Code (MMark 2) (TSwitch [([(76, 76)%Z], 303%positive)] 49));
  (222%positive, Code (MMark 2) (TSwitch [([(84, 84)%Z], 304%positive)] 49));
  (223%positive, Code (MMark 2) (TSwitch [([(69, 69)%Z], 305%positive)] 49));
  (224%positive, Code (MMark 2) (TSwitch [([(54, 54)%Z], 306%positive)] 49));
  (225%positive, Code (MMark 12) (TSwitch [([(45, 45)%Z], 103%positive); ([(48, 57)%Z; (65, 90)%Z; (95, 95)%Z; (97, 122)%Z], 48%positive)] 226));
  (226%positive, Code MNone (TAct 49));
  (227%positive, Code (MMark 13) (TSwitch [([(45, 45)%Z], 103%positive); ([(48, 57)%Z; (65, 84)%Z; (86, 90)%Z; (95, 95)%Z; (97, 122)%Z], 48%positive); ([(85, 85)%Z], 307%positive)] 228));
  (228%positive, Code MNone (TAct 50));
  (229%positive, Code (MMark 2) (TSwitch [([(45, 45)%Z], 308%positive)] 49));
  (230%positive, Code (MMark 2) (TSwitch [([(76, 76)%Z], 309%positive)] 49));
  (231%positive, Code (MMark 2) (TSwitch [([(101, 101)%Z], 311%positive)] 49));
  (232%positive, Code (MMark 2) (TSwitch [([(69, 69)%Z], 312%positive)] 49));
  (233%positive, Code (MMark 2) (TSwitch [([(69, 69)%Z], 313%positive)] 49));
  (234%positive, Code (MMark 2) (TSwitch [([(95, 95)%Z], 314%positive)] 49));
  (235%positive, Code (MMark 2) (TSwitch [([(73, 73)%Z], 315%positive)] 49));
  (236%positive, Code (MMark 2) (TSwitch [([(101, 101)%Z], 316%positive)] 49));
  (237%positive, Code (MMark 2) (TSwitch [([(84, 84)%Z], 317%positive)] 49));
  (238%positive, Code (MMark 14) (TSwitch [([(45, 45)%Z], 103%positive); ([(48, 57)%Z; (65, 90)%Z; (95, 95)%Z; (97, 122)%Z], 48%positive)] 239));
  (239%positive, Code MNone (TAct 62));
  (240%positive, Code (MMark 2) (TSwitch [([(83, 83)%Z], 318%positive)] 49));
  (241%positive, Code (MMark 2) (TSwitch [([(83, 83)%Z], 319%positive)] 49));
  (242%positive, Code (MMark 2) (TSwitch [([(86, 86)%Z], 320%positive)] 49));
  (243%positive, Code (MMark 2) (TSwitch [([(110, 110)%Z], 321%positive)] 49));
  (244%positive, Code (MMark 2) (TSwitch [([(76, 76)%Z], 322%positive)] 49));
  (245%positive, Code (MMark 2) (TSwitch [([(65, 65)%Z], 324%positive)] 49));
  (246%positive, Code (MMark 2) (TSwitch [([(85, 85)%Z], 325%positive)] 49));
  (247%positive, Code (MMark 15) (TSwitch [([(45, 45)%Z], 103%positive); ([(48, 57)%Z; (65, 83)%Z; (85, 90)%Z; (95, 95)%Z; (97, 122)%Z], 48%positive); ([(84, 84)%Z], 326%positive)] 248));
  (248%positive, Code MNone (TAct 71));
  (249%positive, Code (MMark 2) (TSwitch [([(69, 69)%Z], 327%positive)] 49));
  (250%positive, Code (MMark 2) (TSwitch [([(73, 73)%Z], 329%positive)] 49));
  (251%positive, Code (MMark 2) (TSwitch [([(84, 84)%Z], 330%positive)] 49));
  (252%positive, Code (MMark 2) (TSwitch [([(83, 83)%Z], 331%positive)] 49));
  (253%positive, Code (MMark 2) (TSwitch [([(83, 83)%Z], 332%positive)] 49));
  (254%positive, Code (MMark 2) (TSwitch [([(69, 69)%Z], 334%positive)] 49));
  (255%positive, Code (MMark 2) (TSwitch [([(69, 69)%Z], 336%positive)] 49));
  (256%positive, Code (MMark 2) (TSwitch [([(69, 69)%Z], 338%positive)] 49));
  (257%positive, Code (MMark 2) (TSwitch [([(101, 101)%Z], 339%positive)] 49));
  (258%positive, Code (MMark 2) (TSwitch [([(79, 79)%Z], 340%positive); ([(81, 81)%Z], 341%positive); ([(86, 86)%Z], 342%positive)] 49));
  (259%positive, Code (MMark 2) (TSwitch [([(84, 84)%Z], 343%positive)] 49));
  (260%positive, Code (MMark 2) (TSwitch [([(56, 56)%Z], 344%positive)] 49));
  (261%positive, Code (MMark 2) (TSwitch [([(118, 118)%Z], 345%positive)] 49));
  (262%positive, Code (MMark 2) (TSwitch [([(101, 101)%Z], 346%positive)] 49));
  (263%positive, Code (MMark 2) (TSwitch [([(105, 105)%Z], 347%positive)] 49));
  (264%positive, Code (MMark 2) (TSwitch [([(72, 72)%Z], 348%positive)] 49));
  (265%positive, Code MInc (TAct 92));
  (267%positive, Code MInc (TAct 94));
  (269%positive, Code (MMark 2) (TSwitch [([(78, 78)%Z], 350%positive)] 49));
  (270%positive, Code (MMark 2) (TSwitch [([(82, 82)%Z], 351%positive)] 49));
  (271%positive, Code (MMark 2) (TSwitch [([(73, 73)%Z], 352%positive)] 49));
  (272%positive, Code (MMark 2) (TSwitch [([(77, 77)%Z], 353%positive)] 49));
  (273%positive, Code (MMark 2) (TSwitch [([(78, 78)%Z], 354%positive)] 49));
  (274%positive, Code (MMark 2) (TSwitch [([(116, 116)%Z], 356%positive)] 49));
  (275%positive, Code (MMark 2) (TSwitch [([(69, 69)%Z], 357%positive)] 49));
  (276%positive, Code (MMark 2) (TSwitch [([(65, 65)%Z], 358%positive)] 49));
  (277%positive, Code (MMark 2) (TSwitch [([(67, 67)%Z], 359%positive)] 49));
  (278%positive, Code (MMark 2) (TSwitch [([(83, 83)%Z], 360%positive)] 49));
  (279%positive, Code (MMark 2) (TSwitch [([(79, 79)%Z], 362%positive)] 49));
  (280%positive, Code (MMark 2) (TSwitch [([(84, 84)%Z], 363%positive)] 49));
  (281%positive, Code (MMark 2) (TSwitch [([(65, 65)%Z], 364%positive)] 49));
  (282%positive, Code (MMark 16) (TSwitch [([(45, 45)%Z], 365%positive); ([(48, 57)%Z; (65, 90)%Z; (95, 95)%Z; (97, 122)%Z], 48%positive)] 283));
  (283%positive, Code MNone (TAct 18));
  (284%positive, Code (MMark 2) (TSwitch [([(85, 85)%Z], 366%positive)] 49));
  (285%positive, Code (MMark 2) (TSwitch [([(78, 78)%Z], 367%positive)] 49));
  (286%positive, Code (MMark 2) (TSwitch [([(84, 84)%Z], 368%positive)] 49));
  (287%positive, Code (MMark 2) (TSwitch [([(68, 68)%Z], 369%positive)] 49));
  (288%positive, Code (MMark 2) (TSwitch [([(68, 68)%Z], 370%positive)] 49));
  (289%positive, Code (MMark 2) (TSwitch [([(69, 69)%Z], 371%positive)] 49));
  (290%positive, Code (MMark 2) (TSwitch [([(80, 80)%Z], 372%positive)] 49));
  (291%positive, Code (MMark 2) (TSwitch [([(73, 73)%Z], 373%positive)] 49));
  (292%positive, Code (MMark 2) (TSwitch [([(82, 82)%Z], 374%positive)] 49));
  (293%positive, Code (MMark 2) (TSwitch [([(78, 78)%Z], 375%positive); ([(82, 82)%Z], 376%positive)] 49));
  (294%positive, Code (MMark 2) (TSwitch [([(69, 69)%Z], 377%positive)] 49));
  (295%positive, Code (MMark 17) (TSwitch [([(45, 45)%Z], 103%positive); ([(48, 57)%Z; (65, 90)%Z; (95, 95)%Z; (97, 122)%Z], 48%positive)] 296));
  (296%positive, Code MNone (TAct 34));
  (297%positive, Code (MMark 2) (TSwitch [([(114, 114)%Z], 379%positive)] 49));
  (298%positive, Code (MMark 2) (TSwitch [([(104, 104)%Z], 380%positive)] 49));
  (299%positive, Code (MMark 2) (TSwitch [([(116, 116)%Z], 381%positive)] 49));
  (300%positive, Code (MMark 2) (TSwitch [([(84, 84)%Z], 382%positive)] 49));
  (301%positive, Code (MMark 2) (TSwitch [([(73, 73)%Z], 383%positive)] 49));
  (302%positive, Code (MMark 2) (TSwitch [([(82, 82)%Z], 384%positive)] 49));
  (303%positive, Code (MMark 2) (TSwitch [([(85, 85)%Z], 385%positive)] 49));
  (304%positive, Code (MMark 2) (TSwitch [([(65, 65)%Z], 386%positive); ([(82, 82)%Z], 387%positive)] 49));
  (305%positive, Code (MMark 2) (TSwitch [([(71, 71)%Z], 388%positive); ([(82, 82)%Z], 389%positive)] 49));
  (306%positive, Code (MMark 2) (TSwitch [([(52, 52)%Z], 390%positive)] 49));
  (307%positive, Code (MMark 2) (TSwitch [([(83, 83)%Z], 391%positive)] 49));
  (308%positive, Code MAdv (TSwitch [([(48, 57)%Z; (66, 90)%Z; (95, 95)%Z; (97, 122)%Z], 48%positive); ([(65, 65)%Z], 392%positive)] 101));
  (309%positive, Code (MMark 18) (TSwitch [([(45, 45)%Z], 103%positive); ([(48, 57)%Z; (65, 90)%Z; (95, 95)%Z; (97, 122)%Z], 48%positive)] 310));
  (310%positive, Code MNone (TAct 53));
  (311%positive, Code (MMark 2) (TSwitch [([(114, 114)%Z], 393%positive)] 49));
  (312%positive, Code (MMark 2) (TSwitch [([(67, 67)%Z], 394%positive)] 49));
  (313%positive, Code (MMark 2) (TSwitch [([(84, 84)%Z], 395%positive)] 49));
  (314%positive, Code (MMark 2) (TSwitch [([(73, 73)%Z], 397%positive)] 49));
  (315%positive, Code (MMark 2) (TSwitch [([(79, 79)%Z], 398%positive)] 49));
  (316%positive, Code (MMark 2) (TSwitch [([(99, 99)%Z], 399%positive)] 49));
  (317%positive, Code (MMark 2) (TSwitch [([(69, 69)%Z], 400%positive)] 49));
  (318%positive, Code (MMark 2) (TSwitch [([(95, 95)%Z], 401%positive)] 49));
  (319%positive, Code (MMark 2) (TSwitch [([(69, 69)%Z], 402%positive)] 49));
  (320%positive, Code (MMark 2) (TSwitch [([(65, 65)%Z], 403%positive)] 49));
  (321%positive, Code (MMark 2) (TSwitch [([(116, 116)%Z], 404%positive)] 49));
  (322%positive, Code (MMark 19) (TSwitch [([(45, 45)%Z], 103%positive); ([(48, 57)%Z; (65, 90)%Z; (95, 95)%Z; (97, 122)%Z], 48%positive)] 323));
  (323%positive, Code MNone (TAct 67));
  (324%positive, Code (MMark 2) (TSwitch [([(84, 84)%Z], 405%positive)] 49));
  (325%positive, Code (MMark 2) (TSwitch [([(69, 69)%Z], 406%positive)] 49));
  (326%positive, Code (MMark 2) (TSwitch [([(73, 73)%Z], 407%positive)] 49));
  (327%positive, Code (MMark 20) (TSwitch [([(45, 45)%Z], 103%positive); ([(48, 57)%Z; (65, 90)%Z; (95, 95)%Z; (97, 122)%Z], 48%positive)] 328));
  (328%positive, Code MNone (TAct 73));
  (329%positive, Code (MMark 2) (TSwitch [([(78, 78)%Z], 408%positive)] 49));
  (330%positive, Code (MMark 2) (TSwitch [([(65, 65)%Z], 409%positive)] 49));
  (331%positive, Code (MMark 2) (TSwitch [([(116, 116)%Z], 410%positive)] 49));
  (332%positive, Code (MMark 21) (TSwitch [([(45, 45)%Z], 103%positive); ([(48, 57)%Z; (65, 90)%Z; (95, 95)%Z; (97, 122)%Z], 48%positive)] 333));
  (333%positive, Code MNone (TAct 77));
  (334%positive, Code (MMark 22) (TSwitch [([(45, 45)%Z], 411%positive); ([(48, 57)%Z; (65, 90)%Z; (95, 95)%Z; (97, 122)%Z], 48%positive)] 335));
  (335%positive, Code MNone (TAct 79));
  (336%positive, Code (MMark 23) (TSwitch [([(45, 45)%Z], 103%positive); ([(48, 57)%Z; (65, 90)%Z; (95, 95)%Z; (97, 122)%Z], 48%positive)] 337));
  (337%positive, Code MNone (TAct 81));
  (338%positive, Code (MMark 2) (TSwitch [([(45, 45)%Z], 412%positive)] 49));
  (339%positive, Code (MMark 2) (TSwitch [([(116, 116)%Z], 413%positive)] 49));
  (340%positive, Code (MMark 2) (TSwitch [([(78, 78)%Z], 414%positive)] 49));
  (341%positive, Code (MMark 2) (TSwitch [([(85, 85)%Z], 416%positive)] 49));
  (342%positive, Code (MMark 2) (TSwitch [([(69, 69)%Z], 417%positive)] 49));
  (343%positive, Code (MMark 2) (TSwitch [([(105, 105)%Z], 418%positive)] 49));
  (344%positive, Code (MMark 2) (TSwitch [([(83, 83)%Z], 419%positive)] 49));
  (345%positive, Code (MMark 2) (TSwitch [([(101, 101)%Z], 420%positive)] 49));
  (346%positive, Code (MMark 2) (TSwitch [([(111, 111)%Z], 421%positive)] 49));
  (347%positive, Code (MMark 2) (TSwitch [([(98, 98)%Z], 422%positive)] 49));
  (348%positive, Code (MMark 24) (TSwitch [([(45, 45)%Z], 103%positive); ([(48, 57)%Z; (65, 90)%Z; (95, 95)%Z; (97, 122)%Z], 48%positive)] 349));
  (349%positive, Code MNone (TAct 91));
  (350%positive, Code (MMark 2) (TSwitch [([(84, 84)%Z], 423%positive)] 49));
  (351%positive, Code (MMark 2) (TSwitch [([(65, 65)%Z], 425%positive)] 49));
  (352%positive, Code (MMark 2) (TSwitch [([(67, 67)%Z], 426%positive)] 49));
  (353%positive, Code (MMark 2) (TSwitch [([(65, 65)%Z], 427%positive)] 49));
  (354%positive, Code (MMark 25) (TSwitch [([(45, 45)%Z], 103%positive); ([(48, 57)%Z; (65, 90)%Z; (95, 95)%Z; (97, 122)%Z], 48%positive)] 355));
  (355%positive, Code MNone (TAct 6));
  (356%positive, Code (MMark 2) (TSwitch [([(114, 114)%Z], 428%positive)] 49));
  (357%positive, Code (MMark 2) (TSwitch [([(65, 65)%Z], 429%positive)] 49));
  (358%positive, Code (MMark 2) (TSwitch [([(67, 67)%Z], 430%positive)] 49));
  (359%positive, Code (MMark 2) (TSwitch [([(69, 69)%Z], 431%positive)] 49));
  (360%positive, Code (MMark 26) (TSwitch [([(45, 45)%Z], 103%positive); ([(48, 57)%Z; (65, 90)%Z; (95, 95)%Z; (97, 122)%Z], 48%positive)] 361));
  (361%positive, Code MNone (TAct 13));
  (362%positive, Code (MMark 2) (TSwitch [([(78, 78)%Z], 433%positive)] 49));
  (363%positive, Code (MMark 2) (TSwitch [([(82, 82)%Z], 434%positive)] 49));
  (364%positive, Code (MMark 2) (TSwitch [([(73, 73)%Z], 435%positive)] 49));
  (365%positive, Code MAdv (TSwitch [([(48, 57)%Z; (65, 83)%Z; (85, 90)%Z; (95, 95)%Z; (97, 122)%Z], 48%positive); ([(84, 84)%Z], 436%positive)] 101));
  (366%positive, Code (MMark 2) (TSwitch [([(76, 76)%Z], 437%positive)] 49));
  (367%positive, Code (MMark 2) (TSwitch [([(73, 73)%Z], 438%positive)] 49));
  (368%positive, Code (MMark 2) (TSwitch [([(73, 73)%Z], 439%positive)] 49));
  (369%positive, Code (MMark 2) (TSwitch [([(68, 68)%Z], 440%positive)] 49));
  (370%positive, Code (MMark 2) (TSwitch [([(69, 69)%Z], 441%positive); ([(73, 73)%Z], 442%positive)] 49));
  (371%positive, Code (MMark 2) (TSwitch [([(82, 82)%Z], 443%positive)] 49));
  (372%positive, Code (MMark 2) (TSwitch [([(84, 84)%Z], 444%positive)] 49));
  (373%positive, Code (MMark 2) (TSwitch [([(67, 67)%Z], 446%positive)] 49));
  (374%positive, Code (MMark 2) (TSwitch [([(84, 84)%Z], 447%positive)] 49));
  (375%positive, Code (MMark 2) (TSwitch [([(83, 83)%Z], 448%positive)] 49));
  (376%positive, Code (MMark 2) (TSwitch [([(78, 78)%Z], 449%positive)] 49));
  (377%positive, Code (MMark 27) (TSwitch [([(45, 45)%Z], 103%positive); ([(48, 57)%Z; (65, 90)%Z; (95, 95)%Z; (97, 122)%Z], 48%positive)] 378));
  (378%positive, Code MNone (TAct 33));
  (379%positive, Code (MMark 2) (TSwitch [([(97, 97)%Z], 450%positive)] 49));
  (380%positive, Code (MMark 2) (TSwitch [([(105, 105)%Z], 451%positive)] 49));
  (381%positive, Code (MMark 2) (TSwitch [([(114, 114)%Z], 452%positive)] 49));
  (382%positive, Code (MMark 2) (TSwitch [([(73, 73)%Z], 453%positive)] 49));
  (383%positive, Code (MMark 2) (TSwitch [([(67, 67)%Z], 454%positive); ([(69, 69)%Z], 455%positive)] 49));
  (384%positive, Code (MMark 2) (TSwitch [([(84, 84)%Z], 456%positive)] 49));
  (385%positive, Code (MMark 2) (TSwitch [([(68, 68)%Z], 457%positive)] 49));
  (386%positive, Code (MMark 2) (TSwitch [([(78, 78)%Z], 458%positive)] 49));
  (387%positive, Code (MMark 2) (TSwitch [([(85, 85)%Z], 459%positive)] 49));
  (388%positive, Code (MMark 2) (TSwitch [([(69, 69)%Z], 460%positive)] 49));
  (389%positive, Code (MMark 2) (TSwitch [([(83, 83)%Z], 461%positive)] 49));
  (390%positive, Code (MMark 2) (TSwitch [([(54, 54)%Z], 462%positive)] 49));
  (391%positive, Code (MMark 2) (TSwitch [([(45, 45)%Z], 463%positive)] 49));
  (392%positive, Code (MMark 2) (TSwitch [([(45, 45)%Z], 464%positive)] 49));
  (393%positive, Code (MMark 2) (TSwitch [([(105, 105)%Z], 465%positive)] 49));
  (394%positive, Code (MMark 2) (TSwitch [([(84, 84)%Z], 466%positive)] 49));
  (395%positive, Code (MMark 28) (TSwitch [([(45, 45)%Z], 103%positive); ([(48, 57)%Z; (65, 90)%Z; (95, 95)%Z; (97, 122)%Z], 48%positive)] 396));
  (396%positive, Code MNone (TAct 57));
  (397%positive, Code (MMark 2) (TSwitch [([(82, 82)%Z], 468%positive)] 49));
  (398%positive, Code (MMark 2) (TSwitch [([(78, 78)%Z], 469%positive)] 49));
  (399%positive, Code (MMark 2) (TSwitch [([(116, 116)%Z], 470%positive)] 49));
  (400%positive, Code (MMark 2) (TSwitch [([(82, 82)%Z], 471%positive)] 49));
  (401%positive, Code (MMark 2) (TSwitch [([(73, 73)%Z], 472%positive)] 49));
  (402%positive, Code (MMark 2) (TSwitch [([(78, 78)%Z], 473%positive)] 49));
  (403%positive, Code (MMark 2) (TSwitch [([(84, 84)%Z], 474%positive)] 49));
  (404%positive, Code (MMark 2) (TSwitch [([(97, 97)%Z], 475%positive)] 49));
  (405%positive, Code (MMark 2) (TSwitch [([(73, 73)%Z], 476%positive)] 49));
  (406%positive, Code (MMark 2) (TSwitch [([(78, 78)%Z], 477%positive)] 49));
  (407%positive, Code (MMark 2) (TSwitch [([(78, 78)%Z], 478%positive)] 49));
  (408%positive, Code (MMark 2) (TSwitch [([(71, 71)%Z], 479%positive)] 49));
  (409%positive, Code (MMark 2) (TSwitch [([(88, 88)%Z], 481%positive)] 49));
  (410%positive, Code (MMark 2) (TSwitch [([(114, 114)%Z], 483%positive)] 49));
  (411%positive, Code MAdv (TSwitch [([(48, 57)%Z; (65, 78)%Z; (80, 90)%Z; (95, 95)%Z; (97, 122)%Z], 48%positive); ([(79, 79)%Z], 484%positive)] 101));
  (412%positive, Code MAdv (TSwitch [([(48, 57)%Z; (65, 72)%Z; (74, 90)%Z; (95, 95)%Z; (97, 122)%Z], 48%positive); ([(73, 73)%Z], 485%positive)] 101));
  (413%positive, Code (MMark 2) (TSwitch [([(101, 101)%Z], 486%positive)] 49));
  (414%positive, Code (MMark 29) (TSwitch [([(45, 45)%Z], 103%positive); ([(48, 57)%Z; (65, 90)%Z; (95, 95)%Z; (97, 122)%Z], 48%positive)] 415));
  (415%positive, Code MNone (TAct 83));
  (416%positive, Code (MMark 2) (TSwitch [([(69, 69)%Z], 487%positive)] 49));
  (417%positive, Code (MMark 2) (TSwitch [([(82, 82)%Z], 489%positive)] 49));
  (418%positive, Code (MMark 2) (TSwitch [([(109, 109)%Z], 490%positive)] 49));
  (419%positive, Code (MMark 2) (TSwitch [([(116, 116)%Z], 491%positive)] 49));
  (420%positive, Code (MMark 2) (TSwitch [([(114, 114)%Z], 492%positive)] 49));
  (421%positive, Code (MMark 2) (TSwitch [([(116, 116)%Z], 493%positive)] 49));
  (422%positive, Code (MMark 2) (TSwitch [([(108, 108)%Z], 494%positive)] 49));
  (423%positive, Code (MMark 30) (TSwitch [([(45, 45)%Z], 103%positive); ([(48, 57)%Z; (65, 90)%Z; (95, 95)%Z; (97, 122)%Z], 48%positive)] 424));
  (424%positive, Code MNone (TAct 0));
  (425%positive, Code (MMark 2) (TSwitch [([(67, 67)%Z], 495%positive)] 49));
  (426%positive, Code (MMark 2) (TSwitch [([(65, 65)%Z], 496%positive)] 49));
  (427%positive, Code (MMark 2) (TSwitch [([(84, 84)%Z], 497%positive)] 49));
  (428%positive, Code (MMark 2) (TSwitch [([(105, 105)%Z], 498%positive)] 49));
  (429%positive, Code (MMark 2) (TSwitch [([(78, 78)%Z], 499%positive)] 49));
  (430%positive, Code (MMark 2) (TSwitch [([(84, 84)%Z], 501%positive)] 49));
  (431%positive, Code (MMark 31) (TSwitch [([(45, 45)%Z], 103%positive); ([(48, 57)%Z; (65, 90)%Z; (95, 95)%Z; (97, 122)%Z], 48%positive)] 432));
  (432%positive, Code MNone (TAct 12));
  (433%positive, Code (MMark 2) (TSwitch [([(69, 69)%Z], 502%positive)] 49));
  (434%positive, Code (MMark 2) (TSwitch [([(65, 65)%Z], 503%positive)] 49));
  (435%positive, Code (MMark 2) (TSwitch [([(78, 78)%Z], 504%positive)] 49));
  (436%positive, Code (MMark 2) (TSwitch [([(73, 73)%Z], 505%positive)] 49));
  (437%positive, Code (MMark 2) (TSwitch [([(84, 84)%Z], 506%positive)] 49));
  (438%positive, Code (MMark 2) (TSwitch [([(84, 84)%Z], 508%positive)] 49));
  (439%positive, Code (MMark 2) (TSwitch [([(79, 79)%Z], 509%positive)] 49));
  (440%positive, Code (MMark 2) (TSwitch [([(69, 69)%Z], 510%positive)] 49));
  (441%positive, Code (MMark 2) (TSwitch [([(68, 68)%Z], 511%positive)] 49));
  (442%positive, Code (MMark 2) (TSwitch [([(78, 78)%Z], 513%positive)] 49));
  (443%positive, Code (MMark 2) (TSwitch [([(65, 65)%Z], 514%positive)] 49));
  (444%positive, Code (MMark 32) (TSwitch [([(45, 45)%Z], 103%positive); ([(48, 57)%Z; (65, 90)%Z; (95, 95)%Z; (97, 122)%Z], 48%positive)] 445));
  (445%positive, Code MNone (TAct 28));
  (446%positive, Code (MMark 2) (TSwitch [([(73, 73)%Z], 515%positive)] 49));
  (447%positive, Code (MMark 2) (TSwitch [([(83, 83)%Z], 516%positive)] 49));
  (448%positive, Code (MMark 2) (TSwitch [([(73, 73)%Z], 518%positive)] 49));
  (449%positive, Code (MMark 2) (TSwitch [([(65, 65)%Z], 519%positive)] 49));
  (450%positive, Code (MMark 2) (TSwitch [([(108, 108)%Z], 520%positive)] 49));
  (451%positive, Code (MMark 2) (TSwitch [([(99, 99)%Z], 521%positive)] 49));
  (452%positive, Code (MMark 2) (TSwitch [([(105, 105)%Z], 522%positive)] 49));
  (453%positive, Code (MMark 2) (TSwitch [([(70, 70)%Z], 523%positive)] 49));
  (454%positive, Code (MMark 2) (TSwitch [([(73, 73)%Z], 524%positive)] 49));
  (455%positive, Code (MMark 2) (TSwitch [([(68, 68)%Z], 525%positive)] 49));
  (456%positive, Code (MMark 2) (TSwitch [([(83, 83)%Z], 527%positive)] 49));
  (457%positive, Code (MMark 2) (TSwitch [([(69, 69)%Z], 529%positive)] 49));
  (458%positive, Code (MMark 2) (TSwitch [([(67, 67)%Z], 530%positive)] 49));
  (459%positive, Code (MMark 2) (TSwitch [([(67, 67)%Z], 531%positive)] 49));
  (460%positive, Code (MMark 2) (TSwitch [([(82, 82)%Z], 532%positive)] 49));
  (461%positive, Code (MMark 2) (TSwitch [([(69, 69)%Z], 534%positive)] 49));
  (462%positive, Code (MMark 2) (TSwitch [([(83, 83)%Z], 535%positive)] 49));
  (463%positive, Code MAdv (TSwitch [([(48, 57)%Z; (65, 72)%Z; (74, 90)%Z; (95, 95)%Z; (97, 122)%Z], 48%positive); ([(73, 73)%Z], 536%positive)] 101));
  (464%positive, Code MAdv (TSwitch [([(48, 57)%Z; (65, 77)%Z; (79, 90)%Z; (95, 95)%Z; (97, 122)%Z], 48%positive); ([(78, 78)%Z], 537%positive)] 101));
  (465%positive, Code (MMark 2) (TSwitch [([(99, 99)%Z], 538%positive)] 49));
  (466%positive, Code (MMark 33) (TSwitch [([(45, 45)%Z], 103%positive); ([(48, 57)%Z; (65, 90)%Z; (95, 95)%Z; (97, 122)%Z], 48%positive)] 467));
  (467%positive, Code MNone (TAct 55));
  (468%positive, Code (MMark 2) (TSwitch [([(73, 73)%Z], 539%positive)] 49));
  (469%positive, Code (MMark 2) (TSwitch [([(65, 65)%Z], 541%positive)] 49));
  (470%positive, Code (MMark 2) (TSwitch [([(68, 68)%Z], 542%positive)] 49));
  (471%positive, Code (MMark 2) (TSwitch [([(78, 78)%Z], 543%positive)] 49));
  (472%positive, Code (MMark 2) (TSwitch [([(78, 78)%Z], 545%positive)] 49));
  (473%positive, Code (MMark 2) (TSwitch [([(84, 84)%Z], 546%positive)] 49));
  (474%positive, Code (MMark 2) (TSwitch [([(69, 69)%Z], 548%positive)] 49));
  (475%positive, Code (MMark 2) (TSwitch [([(98, 98)%Z], 550%positive)] 49));
  (476%positive, Code (MMark 2) (TSwitch [([(86, 86)%Z], 551%positive)] 49));
  (477%positive, Code (MMark 2) (TSwitch [([(67, 67)%Z], 552%positive)] 49));
  (478%positive, Code (MMark 2) (TSwitch [([(71, 71)%Z], 553%positive)] 49));
  (479%positive, Code (MMark 34) (TSwitch [([(45, 45)%Z], 103%positive); ([(48, 57)%Z; (65, 90)%Z; (95, 95)%Z; (97, 122)%Z], 48%positive)] 480));
  (480%positive, Code MNone (TAct 74));
  (481%positive, Code (MMark 35) (TSwitch [([(45, 45)%Z], 103%positive); ([(48, 57)%Z; (65, 90)%Z; (95, 95)%Z; (97, 122)%Z], 48%positive)] 482));
  (482%positive, Code MNone (TAct 75));
  (483%positive, Code (MMark 2) (TSwitch [([(105, 105)%Z], 554%positive)] 49));
  (484%positive, Code (MMark 2) (TSwitch [([(70, 70)%Z], 555%positive)] 49));
  (485%positive, Code (MMark 2) (TSwitch [([(68, 68)%Z], 556%positive)] 49));
  (486%positive, Code (MMark 2) (TSwitch [([(120, 120)%Z], 557%positive)] 49));
  (487%positive, Code (MMark 36) (TSwitch [([(45, 45)%Z], 103%positive); ([(48, 57)%Z; (65, 90)%Z; (95, 95)%Z; (97, 122)%Z], 48%positive)] 488));
  (488%positive, Code MNone (TAct 84));
  (489%positive, Code (MMark 2) (TSwitch [([(83, 83)%Z], 558%positive)] 49));
  (490%positive, Code (MMark 2) (TSwitch [([(101, 101)%Z], 559%positive)] 49));
  (491%positive, Code (MMark 2) (TSwitch [([(114, 114)%Z], 561%positive)] 49));
  (492%positive, Code (MMark 2) (TSwitch [([(115, 115)%Z], 562%positive)] 49));
  (493%positive, Code (MMark 2) (TSwitch [([(101, 101)%Z], 563%positive)] 49));
  (494%positive, Code (MMark 2) (TSwitch [([(101, 101)%Z], 564%positive)] 49));
  (495%positive, Code (MMark 2) (TSwitch [([(84, 84)%Z], 565%positive)] 49));
  (496%positive, Code (MMark 2) (TSwitch [([(84, 84)%Z], 566%positive)] 49));
  (497%positive, Code (MMark 2) (TSwitch [([(73, 73)%Z], 567%positive)] 49));
  (498%positive, Code (MMark 2) (TSwitch [([(110, 110)%Z], 568%positive)] 49));
  (499%positive, Code (MMark 37) (TSwitch [([(45, 45)%Z], 103%positive); ([(48, 57)%Z; (65, 90)%Z; (95, 95)%Z; (97, 122)%Z], 48%positive)] 500));
  (500%positive, Code MNone (TAct 9));
  (501%positive, Code (MMark 2) (TSwitch [([(69, 69)%Z], 569%positive)] 49));
  (502%positive, Code (MMark 2) (TSwitch [([(78, 78)%Z], 570%positive)] 49));
  (503%positive, Code (MMark 2) (TSwitch [([(73, 73)%Z], 571%positive)] 49));
  (504%positive, Code (MMark 2) (TSwitch [([(73, 73)%Z], 572%positive)] 49));
  (505%positive, Code (MMark 2) (TSwitch [([(77, 77)%Z], 573%positive)] 49));
  (506%positive, Code (MMark 38) (TSwitch [([(45, 45)%Z], 103%positive); ([(48, 57)%Z; (65, 90)%Z; (95, 95)%Z; (97, 122)%Z], 48%positive)] 507));
  (507%positive, Code MNone (TAct 20));
  (508%positive, Code (MMark 2) (TSwitch [([(73, 73)%Z], 574%positive)] 49));
  (509%positive, Code (MMark 2) (TSwitch [([(78, 78)%Z], 575%positive)] 49));
  (510%positive, Code (MMark 2) (TSwitch [([(68, 68)%Z], 577%positive)] 49));
  (511%positive, Code (MMark 39) (TSwitch [([(45, 45)%Z], 103%positive); ([(48, 57)%Z; (65, 90)%Z; (95, 95)%Z; (97, 122)%Z], 48%positive)] 512));
  (512%positive, Code MNone (TAct 24));
  (513%positive, Code (MMark 2) (TSwitch [([(71, 71)%Z], 579%positive)] 49));
  (514%positive, Code (MMark 2) (TSwitch [([(84, 84)%Z], 580%positive)] 49));
  (515%positive, Code (MMark 2) (TSwitch [([(84, 84)%Z], 581%positive)] 49));
  (516%positive, Code (MMark 40) (TSwitch [([(45, 45)%Z], 103%positive); ([(48, 57)%Z; (65, 90)%Z; (95, 95)%Z; (97, 122)%Z], 48%positive)] 517));
  (517%positive, Code MNone (TAct 30));
  (518%positive, Code (MMark 2) (TSwitch [([(66, 66)%Z], 583%positive)] 49));
  (519%positive, Code (MMark 2) (TSwitch [([(76, 76)%Z], 584%positive)] 49));
  (520%positive, Code (MMark 2) (TSwitch [([(83, 83)%Z], 586%positive); ([(105, 105)%Z], 587%positive)] 49));
  (521%positive, Code (MMark 2) (TSwitch [([(83, 83)%Z], 588%positive)] 49));
  (522%positive, Code (MMark 2) (TSwitch [([(110, 110)%Z], 589%positive)] 49));
  (523%positive, Code (MMark 2) (TSwitch [([(73, 73)%Z], 590%positive)] 49));
  (524%positive, Code (MMark 2) (TSwitch [([(84, 84)%Z], 591%positive)] 49));
  (525%positive, Code (MMark 41) (TSwitch [([(45, 45)%Z], 103%positive); ([(48, 57)%Z; (65, 90)%Z; (95, 95)%Z; (97, 122)%Z], 48%positive)] 526));
  (526%positive, Code MNone (TAct 41));
  (527%positive, Code (MMark 42) (TSwitch [([(45, 45)%Z], 103%positive); ([(48, 57)%Z; (65, 90)%Z; (95, 95)%Z; (97, 122)%Z], 48%positive)] 528));
  (528%positive, Code MNone (TAct 42));
  (529%positive, Code (MMark 2) (TSwitch [([(83, 83)%Z], 593%positive)] 49));
  (530%positive, Code (MMark 2) (TSwitch [([(69, 69)%Z], 595%positive)] 49));
  (531%positive, Code (MMark 2) (TSwitch [([(84, 84)%Z], 597%positive)] 49));
  (532%positive, Code (MMark 43) (TSwitch [([(45, 45)%Z], 103%positive); ([(48, 57)%Z; (65, 90)%Z; (95, 95)%Z; (97, 122)%Z], 48%positive)] 533));
  (533%positive, Code MNone (TAct 46));
  (534%positive, Code (MMark 2) (TSwitch [([(67, 67)%Z], 598%positive)] 49));
  (535%positive, Code (MMark 2) (TSwitch [([(116, 116)%Z], 599%positive)] 49));
  (536%positive, Code (MMark 2) (TSwitch [([(78, 78)%Z], 600%positive)] 49));
  (537%positive, Code (MMark 2) (TSwitch [([(85, 85)%Z], 601%positive)] 49));
  (538%positive, Code (MMark 2) (TSwitch [([(83, 83)%Z], 602%positive)] 49));
  (539%positive, Code (MMark 44) (TSwitch [([(45, 45)%Z], 103%positive); ([(48, 57)%Z; (65, 90)%Z; (95, 95)%Z; (97, 122)%Z], 48%positive)] 540));
  (540%positive, Code MNone (TAct 59));
  (541%positive, Code (MMark 2) (TSwitch [([(76, 76)%Z], 603%positive)] 49));
  (542%positive, Code (MMark 2) (TSwitch [([(101, 101)%Z], 605%positive)] 49));
  (543%positive, Code (MMark 45) (TSwitch [([(45, 45)%Z], 103%positive); ([(48, 57)%Z; (65, 90)%Z; (95, 95)%Z; (97, 122)%Z], 48%positive)] 544));
  (544%positive, Code MNone (TAct 61));
  (545%positive, Code (MMark 2) (TSwitch [([(70, 70)%Z], 606%positive)] 49));
  (546%positive, Code (MMark 46) (TSwitch [([(45, 45)%Z], 103%positive); ([(48, 57)%Z; (65, 90)%Z; (95, 95)%Z; (97, 122)%Z], 48%positive)] 547));
  (547%positive, Code MNone (TAct 64));
  (548%positive, Code (MMark 47) (TSwitch [([(45, 45)%Z], 103%positive); ([(48, 57)%Z; (65, 90)%Z; (95, 95)%Z; (97, 122)%Z], 48%positive)] 549));
  (549%positive, Code MNone (TAct 66));
  (550%positive, Code (MMark 2) (TSwitch [([(108, 108)%Z], 607%positive)] 49));
  (551%positive, Code (MMark 2) (TSwitch [([(69, 69)%Z], 608%positive)] 49));
  (552%positive, Code (MMark 2) (TSwitch [([(69, 69)%Z], 609%positive)] 49));
  (553%positive, Code (MMark 2) (TSwitch [([(83, 83)%Z], 611%positive)] 49));
  (554%positive, Code (MMark 2) (TSwitch [([(110, 110)%Z], 613%positive)] 49));
  (555%positive, Code (MMark 2) (TSwitch [([(45, 45)%Z], 614%positive)] 49));
  (556%positive, Code (MMark 2) (TSwitch [([(69, 69)%Z], 615%positive)] 49));
  (557%positive, Code (MMark 2) (TSwitch [([(83, 83)%Z], 616%positive)] 49));
  (558%positive, Code (MMark 2) (TSwitch [([(65, 65)%Z], 617%positive)] 49));
  (559%positive, Code (MMark 48) (TSwitch [([(45, 45)%Z], 103%positive); ([(48, 57)%Z; (65, 90)%Z; (95, 95)%Z; (97, 122)%Z], 48%positive)] 560));
  (560%positive, Code MNone (TAct 87));
  (561%positive, Code (MMark 2) (TSwitch [([(105, 105)%Z], 618%positive)] 49));
  (562%positive, Code (MMark 2) (TSwitch [([(97, 97)%Z], 619%positive)] 49));
  (563%positive, Code (MMark 2) (TSwitch [([(120, 120)%Z], 620%positive)] 49));
  (564%positive, Code (MMark 2) (TSwitch [([(83, 83)%Z], 621%positive)] 49));
  (565%positive, Code (MMark 2) (TSwitch [([(45, 45)%Z], 622%positive)] 49));
  (566%positive, Code (MMark 2) (TSwitch [([(73, 73)%Z], 623%positive)] 49));
  (567%positive, Code (MMark 2) (TSwitch [([(67, 67)%Z], 624%positive)] 49));
  (568%positive, Code (MMark 2) (TSwitch [([(103, 103)%Z], 626%positive)] 49));
  (569%positive, Code (MMark 2) (TSwitch [([(82, 82)%Z], 628%positive)] 49));
  (570%positive, Code (MMark 2) (TSwitch [([(84, 84)%Z], 630%positive)] 49));
  (571%positive, Code (MMark 2) (TSwitch [([(78, 78)%Z], 632%positive)] 49));
  (572%positive, Code (MMark 2) (TSwitch [([(78, 78)%Z], 633%positive)] 49));
  (573%positive, Code (MMark 2) (TSwitch [([(69, 69)%Z], 634%positive)] 49));
  (574%positive, Code (MMark 2) (TSwitch [([(79, 79)%Z], 636%positive)] 49));
  (575%positive, Code (MMark 49) (TSwitch [([(45, 45)%Z], 103%positive); ([(48, 57)%Z; (65, 90)%Z; (95, 95)%Z; (97, 122)%Z], 48%positive)] 576));
  (576%positive, Code MNone (TAct 22));
  (577%positive, Code (MMark 50) (TSwitch [([(45, 45)%Z], 103%positive); ([(48, 57)%Z; (65, 90)%Z; (95, 95)%Z; (97, 122)%Z], 48%positive)] 578));
  (578%positive, Code MNone (TAct 23));
  (579%positive, Code (MMark 2) (TSwitch [([(95, 95)%Z], 637%positive)] 49));
  (580%positive, Code (MMark 2) (TSwitch [([(69, 69)%Z], 638%positive)] 49));
  (581%positive, Code (MMark 51) (TSwitch [([(45, 45)%Z], 103%positive); ([(48, 57)%Z; (65, 90)%Z; (95, 95)%Z; (97, 122)%Z], 48%positive)] 582));
  (582%positive, Code MNone (TAct 29));
  (583%positive, Code (MMark 2) (TSwitch [([(73, 73)%Z], 639%positive)] 49));
  (584%positive, Code (MMark 52) (TSwitch [([(45, 45)%Z], 103%positive); ([(48, 57)%Z; (65, 90)%Z; (95, 95)%Z; (97, 122)%Z], 48%positive)] 585));
  (585%positive, Code MNone (TAct 32));
  (586%positive, Code (MMark 2) (TSwitch [([(116, 116)%Z], 640%positive)] 49));
  (587%positive, Code (MMark 2) (TSwitch [([(122, 122)%Z], 641%positive)] 49));
  (588%positive, Code (MMark 2) (TSwitch [([(116, 116)%Z], 642%positive)] 49));
  (589%positive, Code (MMark 2) (TSwitch [([(103, 103)%Z], 643%positive)] 49));
  (590%positive, Code (MMark 2) (TSwitch [([(69, 69)%Z], 645%positive)] 49));
  (591%positive, Code (MMark 53) (TSwitch [([(45, 45)%Z], 103%positive); ([(48, 57)%Z; (65, 90)%Z; (95, 95)%Z; (97, 122)%Z], 48%positive)] 592));
  (592%positive, Code MNone (TAct 40));
  (593%positive, Code (MMark 54) (TSwitch [([(45, 45)%Z], 103%positive); ([(48, 57)%Z; (65, 90)%Z; (95, 95)%Z; (97, 122)%Z], 48%positive)] 594));
  (594%positive, Code MNone (TAct 43));
  (595%positive, Code (MMark 55) (TSwitch [([(45, 45)%Z], 103%positive); ([(48, 57)%Z; (65, 90)%Z; (95, 95)%Z; (97, 122)%Z], 48%positive)] 596));
  (596%positive, Code MNone (TAct 44));
  (597%positive, Code (MMark 2) (TSwitch [([(73, 73)%Z], 646%positive)] 49));
  (598%positive, Code (MMark 2) (TSwitch [([(84, 84)%Z], 647%positive)] 49));
  (599%positive, Code (MMark 2) (TSwitch [([(114, 114)%Z], 648%positive)] 49));
  (600%positive, Code (MMark 2) (TSwitch [([(70, 70)%Z], 649%positive)] 49));
  (601%positive, Code (MMark 2) (TSwitch [([(77, 77)%Z], 650%positive)] 49));
  (602%positive, Code (MMark 2) (TSwitch [([(116, 116)%Z], 651%positive)] 49));
  (603%positive, Code (MMark 56) (TSwitch [([(45, 45)%Z], 103%positive); ([(48, 57)%Z; (65, 90)%Z; (95, 95)%Z; (97, 122)%Z], 48%positive)] 604));
  (604%positive, Code MNone (TAct 60));
  (605%positive, Code (MMark 2) (TSwitch [([(115, 115)%Z], 652%positive)] 49));
  (606%positive, Code (MMark 2) (TSwitch [([(73, 73)%Z], 653%positive)] 49));
  (607%positive, Code (MMark 2) (TSwitch [([(101, 101)%Z], 654%positive)] 49));
  (608%positive, Code (MMark 2) (TSwitch [([(45, 45)%Z], 655%positive)] 49));
  (609%positive, Code (MMark 57) (TSwitch [([(45, 45)%Z], 103%positive); ([(48, 57)%Z; (65, 90)%Z; (95, 95)%Z; (97, 122)%Z], 48%positive)] 610));
  (610%positive, Code MNone (TAct 70));
  (611%positive, Code (MMark 58) (TSwitch [([(45, 45)%Z], 103%positive); ([(48, 57)%Z; (65, 90)%Z; (95, 95)%Z; (97, 122)%Z], 48%positive)] 612));
  (612%positive, Code MNone (TAct 72));
  (613%positive, Code (MMark 2) (TSwitch [([(103, 103)%Z], 656%positive)] 49));
  (614%positive, Code MAdv (TSwitch [([(48, 57)%Z; (65, 67)%Z; (69, 90)%Z; (95, 95)%Z; (97, 122)%Z], 48%positive); ([(68, 68)%Z], 658%positive)] 101));
  (615%positive, Code (MMark 2) (TSwitch [([(78, 78)%Z], 659%positive)] 49));
  (616%positive, Code (MMark 2) (TSwitch [([(116, 116)%Z], 660%positive)] 49));
  (617%positive, Code (MMark 2) (TSwitch [([(76, 76)%Z], 661%positive)] 49));
  (618%positive, Code (MMark 2) (TSwitch [([(110, 110)%Z], 663%positive)] 49));
  (619%positive, Code (MMark 2) (TSwitch [([(108, 108)%Z], 664%positive)] 49));
  (620%positive, Code (MMark 2) (TSwitch [([(83, 83)%Z], 665%positive)] 49));
  (621%positive, Code (MMark 2) (TSwitch [([(116, 116)%Z], 666%positive)] 49));
  (622%positive, Code MAdv (TSwitch [([(48, 57)%Z; (65, 82)%Z; (84, 90)%Z; (95, 95)%Z; (97, 122)%Z], 48%positive); ([(83, 83)%Z], 667%positive)] 101));
  (623%positive, Code (MMark 2) (TSwitch [([(79, 79)%Z], 668%positive)] 49));
  (624%positive, Code (MMark 59) (TSwitch [([(45, 45)%Z], 103%positive); ([(48, 57)%Z; (65, 90)%Z; (95, 95)%Z; (97, 122)%Z], 48%positive)] 625));
  (625%positive, Code MNone (TAct 5));
  (626%positive, Code (MMark 60) (TSwitch [([(45, 45)%Z], 103%positive); ([(48, 57)%Z; (65, 90)%Z; (95, 95)%Z; (97, 122)%Z], 48%positive)] 627));
  (627%positive, Code MNone (TAct 8));
  (628%positive, Code (MMark 61) (TSwitch [([(45, 45)%Z], 103%positive); ([(48, 57)%Z; (65, 90)%Z; (95, 95)%Z; (97, 122)%Z], 48%positive)] 629));
  (629%positive, Code MNone (TAct 11));
  (630%positive, Code (MMark 62) (TSwitch [([(45, 45)%Z], 103%positive); ([(48, 57)%Z; (65, 82)%Z; (84, 90)%Z; (95, 95)%Z; (97, 122)%Z], 48%positive); ([(83, 83)%Z], 669%positive)] 631));
  (631%positive, Code MNone (TAct 14));
  (632%positive, Code (MMark 2) (TSwitch [([(69, 69)%Z], 671%positive)] 49));
  (633%positive, Code (MMark 2) (TSwitch [([(71, 71)%Z], 672%positive)] 49));
  (634%positive, Code (MMark 63) (TSwitch [([(45, 45)%Z], 103%positive); ([(48, 57)%Z; (65, 90)%Z; (95, 95)%Z; (97, 122)%Z], 48%positive)] 635));
  (635%positive, Code MNone (TAct 19));
  (636%positive, Code (MMark 2) (TSwitch [([(78, 78)%Z], 674%positive)] 49));
  (637%positive, Code (MMark 2) (TSwitch [([(67, 67)%Z], 675%positive)] 49));
  (638%positive, Code (MMark 2) (TSwitch [([(68, 68)%Z], 676%positive)] 49));
  (639%positive, Code (MMark 2) (TSwitch [([(76, 76)%Z], 678%positive)] 49));
  (640%positive, Code (MMark 2) (TSwitch [([(114, 114)%Z], 679%positive)] 49));
  (641%positive, Code (MMark 2) (TSwitch [([(101, 101)%Z], 680%positive)] 49));
  (642%positive, Code (MMark 2) (TSwitch [([(114, 114)%Z], 681%positive)] 49));
  (643%positive, Code (MMark 64) (TSwitch [([(45, 45)%Z], 103%positive); ([(48, 57)%Z; (65, 90)%Z; (95, 95)%Z; (97, 122)%Z], 48%positive)] 644));
  (644%positive, Code MNone (TAct 38));
  (645%positive, Code (MMark 2) (TSwitch [([(82, 82)%Z], 682%positive)] 49));
  (646%positive, Code (MMark 2) (TSwitch [([(79, 79)%Z], 684%positive)] 49));
  (647%positive, Code (MMark 2) (TSwitch [([(73, 73)%Z], 685%positive)] 49));
  (648%positive, Code (MMark 2) (TSwitch [([(105, 105)%Z], 686%positive)] 49));
  (649%positive, Code (MMark 2) (TSwitch [([(73, 73)%Z], 687%positive)] 49));
  (650%positive, Code (MMark 2) (TSwitch [([(66, 66)%Z], 688%positive)] 49));
  (651%positive, Code (MMark 2) (TSwitch [([(114, 114)%Z], 689%positive)] 49));
  (652%positive, Code (MMark 2) (TSwitch [([(99, 99)%Z], 690%positive)] 49));
  (653%positive, Code (MMark 2) (TSwitch [([(78, 78)%Z], 691%positive)] 49));
  (654%positive, Code (MMark 2) (TSwitch [([(83, 83)%Z], 692%positive)] 49));
  (655%positive, Code MAdv (TSwitch [([(48, 57)%Z; (65, 78)%Z; (80, 90)%Z; (95, 95)%Z; (97, 122)%Z], 48%positive); ([(79, 79)%Z], 693%positive)] 101));
  (656%positive, Code (MMark 65) (TSwitch [([(45, 45)%Z], 103%positive); ([(48, 57)%Z; (65, 90)%Z; (95, 95)%Z; (97, 122)%Z], 48%positive)] 657));
  (657%positive, Code MNone (TAct 76));
  (658%positive, Code (MMark 2) (TSwitch [([(65, 65)%Z], 694%positive)] 49));
  (659%positive, Code (MMark 2) (TSwitch [([(84, 84)%Z], 695%positive)] 49));
  (660%positive, Code (MMark 2) (TSwitch [([(114, 114)%Z], 696%positive)] 49));
  (661%positive, Code (MMark 66) (TSwitch [([(45, 45)%Z], 103%positive); ([(48, 57)%Z; (65, 90)%Z; (95, 95)%Z; (97, 122)%Z], 48%positive)] 662));
  (662%positive, Code MNone (TAct 85));
  (663%positive, Code (MMark 2) (TSwitch [([(103, 103)%Z], 697%positive)] 49));
  (664%positive, Code (MMark 2) (TSwitch [([(83, 83)%Z], 699%positive)] 49));
  (665%positive, Code (MMark 2) (TSwitch [([(116, 116)%Z], 700%positive)] 49));
  (666%positive, Code (MMark 2) (TSwitch [([(114, 114)%Z], 701%positive)] 49));
  (667%positive, Code (MMark 2) (TSwitch [([(89, 89)%Z], 702%positive)] 49));
  (668%positive, Code (MMark 2) (TSwitch [([(78, 78)%Z], 703%positive)] 49));
  (669%positive, Code (MMark 67) (TSwitch [([(45, 45)%Z], 103%positive); ([(48, 57)%Z; (65, 90)%Z; (95, 95)%Z; (97, 122)%Z], 48%positive)] 670));
  (670%positive, Code MNone (TAct 15));
  (671%positive, Code (MMark 2) (TSwitch [([(68, 68)%Z], 705%positive)] 49));
  (672%positive, Code (MMark 68) (TSwitch [([(45, 45)%Z], 103%positive); ([(48, 57)%Z; (65, 90)%Z; (95, 95)%Z; (97, 122)%Z], 48%positive)] 673));
  (673%positive, Code MNone (TAct 17));
  (674%positive, Code (MMark 2) (TSwitch [([(83, 83)%Z], 707%positive)] 49));
  (675%positive, Code (MMark 2) (TSwitch [([(79, 79)%Z], 709%positive)] 49));
  (676%positive, Code (MMark 69) (TSwitch [([(45, 45)%Z], 103%positive); ([(48, 57)%Z; (65, 90)%Z; (95, 95)%Z; (97, 122)%Z], 48%positive)] 677));
  (677%positive, Code MNone (TAct 27));
  (678%positive, Code (MMark 2) (TSwitch [([(73, 73)%Z], 710%positive)] 49));
  (679%positive, Code (MMark 2) (TSwitch [([(105, 105)%Z], 711%positive)] 49));
  (680%positive, Code (MMark 2) (TSwitch [([(100, 100)%Z], 712%positive)] 49));
  (681%positive, Code (MMark 2) (TSwitch [([(105, 105)%Z], 713%positive)] 49));
  (682%positive, Code (MMark 70) (TSwitch [([(45, 45)%Z], 103%positive); ([(48, 57)%Z; (65, 90)%Z; (95, 95)%Z; (97, 122)%Z], 48%positive)] 683));
  (683%positive, Code MNone (TAct 39));
  (684%positive, Code (MMark 2) (TSwitch [([(78, 78)%Z], 714%positive)] 49));
  (685%positive, Code (MMark 2) (TSwitch [([(79, 79)%Z], 715%positive)] 49));
  (686%positive, Code (MMark 2) (TSwitch [([(110, 110)%Z], 716%positive)] 49));
  (687%positive, Code (MMark 2) (TSwitch [([(78, 78)%Z], 717%positive)] 49));
  (688%positive, Code (MMark 2) (TSwitch [([(69, 69)%Z], 718%positive)] 49));
  (689%positive, Code (MMark 2) (TSwitch [([(105, 105)%Z], 719%positive)] 49));
  (690%positive, Code (MMark 2) (TSwitch [([(114, 114)%Z], 720%positive)] 49));
  (691%positive, Code (MMark 2) (TSwitch [([(73, 73)%Z], 721%positive)] 49));
  (692%positive, Code (MMark 2) (TSwitch [([(116, 116)%Z], 722%positive)] 49));
  (693%positive, Code (MMark 2) (TSwitch [([(73, 73)%Z], 723%positive)] 49));
  (694%positive, Code (MMark 2) (TSwitch [([(89, 89)%Z], 724%positive)] 49));
  (695%positive, Code (MMark 2) (TSwitch [([(73, 73)%Z], 726%positive)] 49));
  (696%positive, Code (MMark 2) (TSwitch [([(105, 105)%Z], 727%positive)] 49));
  (697%positive, Code (MMark 71) (TSwitch [([(45, 45)%Z], 103%positive); ([(48, 57)%Z; (65, 90)%Z; (95, 95)%Z; (97, 122)%Z], 48%positive)] 698));
  (698%positive, Code MNone (TAct 88));
  (699%positive, Code (MMark 2) (TSwitch [([(116, 116)%Z], 728%positive)] 49));
  (700%positive, Code (MMark 2) (TSwitch [([(114, 114)%Z], 729%positive)] 49));
  (701%positive, Code (MMark 2) (TSwitch [([(105, 105)%Z], 730%positive)] 49));
  (702%positive, Code (MMark 2) (TSwitch [([(78, 78)%Z], 731%positive)] 49));
  (703%positive, Code (MMark 72) (TSwitch [([(45, 45)%Z], 103%positive); ([(48, 57)%Z; (65, 90)%Z; (95, 95)%Z; (97, 122)%Z], 48%positive)] 704));
  (704%positive, Code MNone (TAct 4));
  (705%positive, Code (MMark 73) (TSwitch [([(45, 45)%Z], 103%positive); ([(48, 57)%Z; (65, 90)%Z; (95, 95)%Z; (97, 122)%Z], 48%positive)] 706));
  (706%positive, Code MNone (TAct 16));
  (707%positive, Code (MMark 74) (TSwitch [([(45, 45)%Z], 103%positive); ([(48, 57)%Z; (65, 90)%Z; (95, 95)%Z; (97, 122)%Z], 48%positive)] 708));
  (708%positive, Code MNone (TAct 21));
  (709%positive, Code (MMark 2) (TSwitch [([(78, 78)%Z], 732%positive)] 49));
  (710%positive, Code (MMark 2) (TSwitch [([(84, 84)%Z], 733%positive)] 49));
  (711%positive, Code (MMark 2) (TSwitch [([(110, 110)%Z], 734%positive)] 49));
  (712%positive, Code (MMark 2) (TSwitch [([(84, 84)%Z], 735%positive)] 49));
  (713%positive, Code (MMark 2) (TSwitch [([(110, 110)%Z], 736%positive)] 49));
  (714%positive, Code (MMark 2) (TSwitch [([(83, 83)%Z], 737%positive)] 49));
  (715%positive, Code (MMark 2) (TSwitch [([(78, 78)%Z], 739%positive)] 49));
  (716%positive, Code (MMark 2) (TSwitch [([(103, 103)%Z], 741%positive)] 49));
  (717%positive, Code (MMark 2) (TSwitch [([(73, 73)%Z], 743%positive)] 49));
  (718%positive, Code (MMark 2) (TSwitch [([(82, 82)%Z], 744%positive)] 49));
  (719%positive, Code (MMark 2) (TSwitch [([(110, 110)%Z], 746%positive)] 49));
  (720%positive, Code (MMark 2) (TSwitch [([(105, 105)%Z], 747%positive)] 49));
  (721%positive, Code (MMark 2) (TSwitch [([(84, 84)%Z], 748%positive)] 49));
  (722%positive, Code (MMark 2) (TSwitch [([(114, 114)%Z], 749%positive)] 49));
  (723%positive, Code (MMark 2) (TSwitch [([(68, 68)%Z], 750%positive)] 49));
  (724%positive, Code (MMark 75) (TSwitch [([(45, 45)%Z], 103%positive); ([(48, 57)%Z; (65, 90)%Z; (95, 95)%Z; (97, 122)%Z], 48%positive)] 725));
  (725%positive, Code MNone (TAct 80));
  (726%positive, Code (MMark 2) (TSwitch [([(70, 70)%Z], 752%positive)] 49));
  (727%positive, Code (MMark 2) (TSwitch [([(110, 110)%Z], 753%positive)] 49));
  (728%positive, Code (MMark 2) (TSwitch [([(114, 114)%Z], 754%positive)] 49));
  (729%positive, Code (MMark 2) (TSwitch [([(105, 105)%Z], 755%positive)] 49));
  (730%positive, Code (MMark 2) (TSwitch [([(110, 110)%Z], 756%positive)] 49));
  (731%positive, Code (MMark 2) (TSwitch [([(84, 84)%Z], 757%positive)] 49));
  (732%positive, Code (MMark 2) (TSwitch [([(84, 84)%Z], 758%positive)] 49));
  (733%positive, Code (MMark 2) (TSwitch [([(89, 89)%Z], 759%positive)] 49));
  (734%positive, Code (MMark 2) (TSwitch [([(103, 103)%Z], 761%positive)] 49));
  (735%positive, Code (MMark 2) (TSwitch [([(105, 105)%Z], 763%positive)] 49));
  (736%positive, Code (MMark 2) (TSwitch [([(103, 103)%Z], 764%positive)] 49));
  (737%positive, Code (MMark 76) (TSwitch [([(45, 45)%Z], 103%positive); ([(48, 57)%Z; (65, 90)%Z; (95, 95)%Z; (97, 122)%Z], 48%positive)] 738));
  (738%positive, Code MNone (TAct 45));
  (739%positive, Code (MMark 77) (TSwitch [([(45, 45)%Z], 103%positive); ([(48, 57)%Z; (65, 90)%Z; (95, 95)%Z; (97, 122)%Z], 48%positive)] 740));
  (740%positive, Code MNone (TAct 47));
  (741%positive, Code (MMark 78) (TSwitch [([(45, 45)%Z], 103%positive); ([(48, 57)%Z; (65, 90)%Z; (95, 95)%Z; (97, 122)%Z], 48%positive)] 742));
  (742%positive, Code MNone (TAct 48));
  (743%positive, Code (MMark 2) (TSwitch [([(84, 84)%Z], 766%positive)] 49));
  (744%positive, Code (MMark 79) (TSwitch [([(45, 45)%Z], 103%positive); ([(48, 57)%Z; (65, 90)%Z; (95, 95)%Z; (97, 122)%Z], 48%positive)] 745));
  (745%positive, Code MNone (TAct 52));
  (746%positive, Code (MMark 2) (TSwitch [([(103, 103)%Z], 767%positive)] 49));
  (747%positive, Code (MMark 2) (TSwitch [([(112, 112)%Z], 769%positive)] 49));
  (748%positive, Code (MMark 2) (TSwitch [([(89, 89)%Z], 770%positive)] 49));
  (749%positive, Code (MMark 2) (TSwitch [([(105, 105)%Z], 772%positive)] 49));
  (750%positive, Code (MMark 80) (TSwitch [([(45, 45)%Z], 773%positive); ([(48, 57)%Z; (65, 90)%Z; (95, 95)%Z; (97, 122)%Z], 48%positive)] 751));
  (751%positive, Code MNone (TAct 68));
  (752%positive, Code (MMark 2) (TSwitch [([(73, 73)%Z], 774%positive)] 49));
  (753%positive, Code (MMark 2) (TSwitch [([(103, 103)%Z], 775%positive)] 49));
  (754%positive, Code (MMark 2) (TSwitch [([(105, 105)%Z], 777%positive)] 49));
  (755%positive, Code (MMark 2) (TSwitch [([(110, 110)%Z], 778%positive)] 49));
  (756%positive, Code (MMark 2) (TSwitch [([(103, 103)%Z], 779%positive)] 49));
  (757%positive, Code (MMark 2) (TSwitch [([(65, 65)%Z], 781%positive)] 49));
  (758%positive, Code (MMark 2) (TSwitch [([(82, 82)%Z], 782%positive)] 49));
  (759%positive, Code (MMark 81) (TSwitch [([(45, 45)%Z], 103%positive); ([(48, 57)%Z; (65, 90)%Z; (95, 95)%Z; (97, 122)%Z], 48%positive)] 760));
  (760%positive, Code MNone (TAct 31));
  (761%positive, Code (MMark 82) (TSwitch [([(45, 45)%Z], 103%positive); ([(48, 57)%Z; (65, 90)%Z; (95, 95)%Z; (97, 122)%Z], 48%positive)] 762));
  (762%positive, Code MNone (TAct 36));
  (763%positive, Code (MMark 2) (TSwitch [([(109, 109)%Z], 783%positive)] 49));
  (764%positive, Code (MMark 83) (TSwitch [([(45, 45)%Z], 103%positive); ([(48, 57)%Z; (65, 90)%Z; (95, 95)%Z; (97, 122)%Z], 48%positive)] 765));
  (765%positive, Code MNone (TAct 37));
  (766%positive, Code (MMark 2) (TSwitch [([(89, 89)%Z], 784%positive)] 49));
  (767%positive, Code (MMark 84) (TSwitch [([(45, 45)%Z], 103%positive); ([(48, 57)%Z; (65, 90)%Z; (95, 95)%Z; (97, 122)%Z], 48%positive)] 768));
  (768%positive, Code MNone (TAct 54));
  (769%positive, Code (MMark 2) (TSwitch [([(116, 116)%Z], 786%positive)] 49));
  (770%positive, Code (MMark 85) (TSwitch [([(45, 45)%Z], 103%positive); ([(48, 57)%Z; (65, 90)%Z; (95, 95)%Z; (97, 122)%Z], 48%positive)] 771));
  (771%positive, Code MNone (TAct 63));
  (772%positive, Code (MMark 2) (TSwitch [([(110, 110)%Z], 787%positive)] 49));
  (773%positive, Code MAdv (TSwitch [([(48, 57)%Z; (65, 72)%Z; (74, 90)%Z; (95, 95)%Z; (97, 122)%Z], 48%positive); ([(73, 73)%Z], 788%positive)] 101));
  (774%positive, Code (MMark 2) (TSwitch [([(69, 69)%Z], 789%positive)] 49));
  (775%positive, Code (MMark 86) (TSwitch [([(45, 45)%Z], 103%positive); ([(48, 57)%Z; (65, 90)%Z; (95, 95)%Z; (97, 122)%Z], 48%positive)] 776));
  (776%positive, Code MNone (TAct 78));
  (777%positive, Code (MMark 2) (TSwitch [([(110, 110)%Z], 790%positive)] 49));
  (778%positive, Code (MMark 2) (TSwitch [([(103, 103)%Z], 791%positive)] 49));
  (779%positive, Code (MMark 87) (TSwitch [([(45, 45)%Z], 103%positive); ([(48, 57)%Z; (65, 90)%Z; (95, 95)%Z; (97, 122)%Z], 48%positive)] 780));
  (780%positive, Code MNone (TAct 90));
  (781%positive, Code (MMark 2) (TSwitch [([(88, 88)%Z], 793%positive)] 49));
  (782%positive, Code (MMark 2) (TSwitch [([(79, 79)%Z], 795%positive)] 49));
  (783%positive, Code (MMark 2) (TSwitch [([(101, 101)%Z], 796%positive)] 49));
  (784%positive, Code (MMark 88) (TSwitch [([(45, 45)%Z], 103%positive); ([(48, 57)%Z; (65, 90)%Z; (95, 95)%Z; (97, 122)%Z], 48%positive)] 785));
  (785%positive, Code MNone (TAct 51));
  (786%positive, Code (MMark 2) (TSwitch [([(111, 111)%Z], 798%positive)] 49));
  (787%positive, Code (MMark 2) (TSwitch [([(103, 103)%Z], 799%positive)] 49));
  (788%positive, Code (MMark 2) (TSwitch [([(82, 82)%Z], 801%positive)] 49));
  (789%positive, Code (MMark 2) (TSwitch [([(82, 82)%Z], 802%positive)] 49));
  (790%positive, Code (MMark 2) (TSwitch [([(103, 103)%Z], 804%positive)] 49));
  (791%positive, Code (MMark 89) (TSwitch [([(45, 45)%Z], 103%positive); ([(48, 57)%Z; (65, 90)%Z; (95, 95)%Z; (97, 122)%Z], 48%positive)] 792));
  (792%positive, Code MNone (TAct 89));
  (793%positive, Code (MMark 90) (TSwitch [([(45, 45)%Z], 103%positive); ([(48, 57)%Z; (65, 90)%Z; (95, 95)%Z; (97, 122)%Z], 48%positive)] 794));
  (794%positive, Code MNone (TAct 1));
  (795%positive, Code (MMark 2) (TSwitch [([(76, 76)%Z], 806%positive)] 49));
  (796%positive, Code (MMark 91) (TSwitch [([(45, 45)%Z], 103%positive); ([(48, 57)%Z; (65, 90)%Z; (95, 95)%Z; (97, 122)%Z], 48%positive)] 797));
  (797%positive, Code MNone (TAct 35));
  (798%positive, Code (MMark 2) (TSwitch [([(114, 114)%Z], 808%positive)] 49));
  (799%positive, Code (MMark 92) (TSwitch [([(45, 45)%Z], 103%positive); ([(48, 57)%Z; (65, 90)%Z; (95, 95)%Z; (97, 122)%Z], 48%positive)] 800));
  (800%positive, Code MNone (TAct 65));
  (801%positive, Code (MMark 2) (TSwitch [([(73, 73)%Z], 810%positive)] 49));
  (802%positive, Code (MMark 93) (TSwitch [([(45, 45)%Z], 103%positive); ([(48, 57)%Z; (65, 90)%Z; (95, 95)%Z; (97, 122)%Z], 48%positive)] 803));
  (803%positive, Code MNone (TAct 82));
  (804%positive, Code (MMark 94) (TSwitch [([(45, 45)%Z], 103%positive); ([(48, 57)%Z; (65, 90)%Z; (95, 95)%Z; (97, 122)%Z], 48%positive)] 805));
  (805%positive, Code MNone (TAct 86));
  (806%positive, Code (MMark 95) (TSwitch [([(45, 45)%Z], 103%positive); ([(48, 57)%Z; (65, 90)%Z; (95, 95)%Z; (97, 122)%Z], 48%positive)] 807));
  (807%positive, Code MNone (TAct 25));
  (808%positive, Code (MMark 96) (TSwitch [([(45, 45)%Z], 103%positive); ([(48, 57)%Z; (65, 90)%Z; (95, 95)%Z; (97, 122)%Z], 48%positive)] 809));
  (809%positive, Code MNone (TAct 56));
  (810%positive, Code (MMark 97) (TSwitch [([(45, 45)%Z], 103%positive); ([(48, 57)%Z; (65, 90)%Z; (95, 95)%Z; (97, 122)%Z], 48%positive)] 811));
  (811%positive, Code MNone (TAct 69))].
Definition yy_map : PositiveMap.t label_code := Eval vm_compute in code_map yy_code.
(** The actions of the rules. *)
Local Open Scope string_scope.
Definition yy_actions : list action := [
  AToken "ABSENT";
  AToken "ABSTRACT_SYNTAX";
  AToken "ALL";
  AToken "ANY";
  AToken "APPLICATION";
  AToken "AUTOMATIC";
  AToken "BEGIN";
  AToken "BIT";
  AToken "BMPString";
  AToken "BOOLEAN";
  AToken "BY";
  AToken "CHARACTER";
  AToken "CHOICE";
  AToken "CLASS";
  AToken "COMPONENT";
  AToken "COMPONENTS";
  AToken "CONSTRAINED";
  AToken "CONTAINING";
  AToken "DATE";
  AToken "DATE_TIME";
  AToken "DEFAULT";
  AToken "DEFINITIONS";
  AToken "DURATION";
  AToken "EMBEDDED";
  AToken "ENCODED";
  AToken "ENCODING_CONTROL";
  AToken "END";
  AToken "ENUMERATED";
  AToken "EXCEPT";
  AToken "EXPLICIT";
  AToken "EXPORTS";
  AToken "EXTENSIBILITY";
  AToken "EXTERNAL";
  AToken "FALSE";
  AToken "FROM";
  AToken "GeneralizedTime";
  AToken "GeneralString";
  AToken "GraphicString";
  AToken "IA5String";
  AToken "IDENTIFIER";
  AToken "IMPLICIT";
  AToken "IMPLIED";
  AToken "IMPORTS";
  AToken "INCLUDES";
  AToken "INSTANCE";
  AToken "INSTRUCTIONS";
  AToken "INTEGER";
  AToken "INTERSECTION";
  AToken "ISO646String";
  AToken "MAX";
  AToken "MIN";
  AToken "MINUS_INFINITY";
  AToken "NOT_A_NUMBER";
  AToken "ASN_NULL";
  AToken "NumericString";
  AToken "OBJECT";
  AToken "ObjectDescriptor";
  AToken "OCTET";
  AToken "OF";
  AToken "OID_IRI";
  AToken "OPTIONAL";
  AToken "PATTERN";
  AToken "PDV";
  AToken "PLUS_INFINITY";
  AToken "PRESENT";
  AToken "PrintableString";
  AToken "PRIVATE";
  AToken "REAL";
  AToken "RELATIVE_OID";
  AToken "RELATIVE_OID_IRI";
  AToken "SEQUENCE";
  AToken "SET";
  AToken "SETTINGS";
  AToken "SIZE";
  AToken "STRING";
  AToken "SYNTAX";
  AToken "T61String";
  AToken "TAGS";
  AToken "TeletexString";
  AToken "TIME";
  AToken "TIME_OF_DAY";
  AToken "TRUE";
  AToken "TYPE_IDENTIFIER";
  AToken "UNION";
  AToken "UNIQUE";
  AToken "UNIVERSAL";
  AToken "UniversalString";
  AToken "UTCTime";
  AToken "UTF8String";
  AToken "VideotexString";
  AToken "VisibleString";
  AToken "WITH";
  ASkip;
  ASkip;
  ABlock;
  AReal;
  AInteger "number";
  AInteger "negativenumber";
  AText "cstring";
  AQuoted "bstring";
  AQuoted "hstring";
  AName "GENERIC_IDENTIFIER_UPPERCASE";
  AName "GENERIC_IDENTIFIER_LOWERCASE";
  AName "typefieldreference";
  AName "valuefieldreference";
  AToken "END_OF_FILE";
  ANewline;
  ASpace;
  AToken "DEFINED_AS";
  AToken "ELIPSIS";
  AToken "RANGE";
  AToken "OPEN_BRACE";
  AToken "CLOSE_BRACE";
  AToken "OPEN_PARENTHESIS";
  AToken "CLOSE_PARENTHESIS";
  AToken "OPEN_SQUARE_BRACKET";
  AToken "CLOSE_SQUARE_BRACKET";
  AToken "COLON";
  AToken "SEMICOLON";
  AToken "COMMA";
  AToken "HYPHEN_MINUS";
  AToken "FULL_STOP";
  AToken "VERTICAL_LINE";
  AToken "EXCLAMATION_MARK";
  AToken "LESS_THAN";
  AToken "ACCENT";
  AToken "AT";
  AUnknown].

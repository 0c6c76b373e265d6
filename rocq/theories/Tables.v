(** GENERATED by tools/lalr.py from the grammar of Cfg.v; do not edit.
    The LALR(1) automaton of src/parser/parser.lalrpop with one start state per
    entry point.  Nothing in this file is trusted: LrCheck.v checks it. *)
From Verif Require Import Chars Lexer Ast Grammar Cfg.

(** An entry of the action table. *)
Inductive action := Shift (s : N) | Reduce (b : bsym) (j : nat).

Record state := mkstate { st_actions : list (N * action); st_gotos : list (N * N) }.

Definition states : list state := [
mkstate [(51, Shift 60)]
  [(100, 59)];
mkstate [(37, Shift 63); (51, Shift 60); (57, Shift 65)]
  [(100, 62); (101, 61); (156, 64)];
mkstate [(37, Shift 63); (51, Shift 60); (57, Shift 65)]
  [(100, 62); (101, 67); (102, 66); (156, 64)];
mkstate [(25, Shift 69)]
  [(103, 68)];
mkstate [(37, Shift 63); (50, Shift 73); (51, Shift 60); (53, Shift 74); (57, Shift 65)]
  [(100, 62); (101, 71); (104, 70); (152, 72); (156, 64)];
mkstate [(37, Shift 63); (51, Shift 60); (55, Shift 79); (56, Shift 80); (57, Shift 65)]
  [(100, 62); (101, 78); (105, 75); (154, 76); (155, 77); (156, 64)];
mkstate [(8, Shift 83); (37, Shift 63); (51, Shift 60); (55, Shift 79); (56, Shift 80); (57, Shift 65)]
  [(100, 62); (101, 78); (105, 82); (106, 81); (154, 76); (155, 77); (156, 64)];
mkstate [(8, Shift 87); (22, Shift 89); (37, Shift 63); (43, Shift 86); (50, Shift 73); (51, Shift 60); (53, Shift 74); (57, Shift 65); (58, Shift 92)]
  [(100, 62); (101, 91); (104, 85); (107, 84); (111, 88); (152, 72); (156, 64); (157, 90)];
mkstate [(8, Shift 87); (22, Shift 89); (37, Shift 63); (43, Shift 86); (50, Shift 73); (51, Shift 60); (53, Shift 74); (57, Shift 65); (58, Shift 92)]
  [(100, 62); (101, 91); (104, 85); (107, 94); (108, 93); (111, 88); (152, 72); (156, 64); (157, 90)];
mkstate [(8, Shift 87); (22, Shift 89); (37, Shift 63); (43, Shift 86); (50, Shift 73); (51, Shift 60); (53, Shift 74); (57, Shift 65); (58, Shift 92)]
  [(100, 62); (101, 91); (104, 85); (107, 97); (108, 96); (109, 95); (111, 88); (152, 72); (156, 64); (157, 90)];
mkstate [(8, Shift 99); (37, Shift 63); (43, Shift 103); (50, Shift 73); (51, Shift 60); (53, Shift 74); (57, Shift 65); (58, Shift 92)]
  [(100, 62); (101, 91); (104, 100); (110, 98); (111, 102); (152, 72); (156, 64); (157, 101)];
mkstate [(37, Shift 63); (51, Shift 60); (57, Shift 65)]
  [(100, 62); (101, 105); (111, 104); (156, 64)];
mkstate [(38, Shift 108)]
  [(112, 106); (114, 107)];
mkstate [(12, Shift 110)]
  [(113, 109)];
mkstate [(38, Shift 108)]
  [(114, 111)];
mkstate [(8, Shift 114); (37, Shift 63); (50, Shift 73); (51, Shift 60); (53, Shift 74); (57, Shift 65)]
  [(100, 62); (101, 91); (104, 113); (111, 115); (115, 112); (152, 72); (156, 64)];
mkstate [(8, Shift 119); (37, Shift 63); (43, Shift 118); (50, Shift 73); (51, Shift 60); (53, Shift 74); (57, Shift 65)]
  [(100, 62); (101, 91); (104, 117); (111, 120); (116, 116); (152, 72); (156, 64)];
mkstate [(8, Shift 122); (37, Shift 63); (43, Shift 124); (50, Shift 73); (51, Shift 60); (53, Shift 74); (57, Shift 65)]
  [(100, 62); (101, 71); (104, 123); (117, 121); (152, 72); (156, 64)];
mkstate [(44, Shift 126)]
  [(118, 125)];
mkstate [(24, Shift 128)]
  [(119, 127)];
mkstate [(26, Shift 130); (45, Shift 131)]
  [(120, 129)];
mkstate [(55, Shift 79)]
  [(121, 132); (154, 133)];
mkstate [(3, Shift 135)]
  [(122, 134)];
mkstate [(5, Shift 137)]
  [(123, 136)];
mkstate [(8, Shift 119); (37, Shift 63); (43, Shift 118); (50, Shift 73); (51, Shift 60); (53, Shift 74); (57, Shift 65)]
  [(100, 62); (101, 91); (104, 139); (111, 120); (116, 140); (124, 138); (152, 72); (156, 64)];
mkstate [(10, Shift 142)]
  [(125, 141)];
mkstate [(10, Shift 149); (19, Shift 153); (23, Shift 148); (26, Shift 144); (28, Shift 150); (31, Shift 145); (32, Shift 152); (37, Shift 63); (49, Shift 158); (50, Shift 73); (51, Shift 60); (53, Shift 74); (54, Shift 159); (55, Shift 79); (56, Shift 80); (57, Shift 65)]
  [(100, 62); (101, 154); (104, 151); (105, 146); (126, 143); (132, 147); (133, 155); (152, 156); (154, 76); (155, 77); (156, 64); (158, 157)];
mkstate [(5, Shift 161)]
  [(127, 160)];
mkstate [(21, Shift 163); (37, Shift 63); (50, Shift 73); (51, Shift 60); (53, Shift 74); (55, Shift 79); (57, Shift 65)]
  [(100, 62); (101, 71); (104, 165); (128, 162); (152, 72); (154, 164); (156, 64)];
mkstate [(8, Shift 170); (21, Shift 167); (37, Shift 63); (50, Shift 73); (51, Shift 60); (53, Shift 74); (55, Shift 79); (57, Shift 65)]
  [(100, 62); (101, 71); (104, 169); (129, 166); (152, 72); (154, 168); (156, 64)];
mkstate [(2, Shift 172)]
  [(130, 171)];
mkstate [(37, Shift 63); (51, Shift 60); (55, Shift 79); (56, Shift 80); (57, Shift 65)]
  [(100, 62); (101, 78); (105, 174); (131, 173); (154, 76); (155, 77); (156, 64)];
mkstate [(37, Shift 63); (49, Shift 158); (51, Shift 60); (53, Shift 74); (54, Shift 159); (55, Shift 79); (56, Shift 80); (57, Shift 65)]
  [(100, 62); (101, 177); (105, 176); (132, 175); (133, 155); (152, 178); (154, 76); (155, 77); (156, 64); (158, 157)];
mkstate [(37, Shift 63); (49, Shift 158); (51, Shift 60); (53, Shift 74); (54, Shift 159); (57, Shift 65)]
  [(100, 62); (101, 180); (133, 179); (152, 178); (156, 64); (158, 157)];
mkstate [(22, Shift 191); (28, Shift 189); (35, Shift 186); (36, Shift 187); (37, Shift 63); (39, Shift 185); (41, Shift 184); (42, Shift 188); (51, Shift 60); (55, Shift 79); (57, Shift 65)]
  [(100, 62); (101, 192); (134, 181); (138, 190); (140, 183); (154, 182); (156, 64)];
mkstate [(2, Shift 194)]
  [(135, 193)];
mkstate [(22, Shift 191); (28, Shift 189); (35, Shift 186); (36, Shift 187); (37, Shift 63); (39, Shift 185); (41, Shift 184); (42, Shift 188); (51, Shift 60); (55, Shift 79); (57, Shift 65)]
  [(100, 62); (101, 192); (134, 196); (136, 195); (138, 190); (140, 183); (154, 182); (156, 64)];
mkstate [(8, Shift 198)]
  [(137, 197)];
mkstate [(37, Shift 63); (51, Shift 60); (55, Shift 79); (57, Shift 65)]
  [(100, 62); (101, 192); (138, 199); (154, 200); (156, 64)];
mkstate [(5, Shift 202)]
  [(139, 201)];
mkstate [(55, Shift 79)]
  [(140, 203); (154, 204)];
mkstate [(6, Shift 206)]
  [(141, 205)];
mkstate [(55, Shift 79)]
  [(121, 208); (142, 207); (154, 133)];
mkstate [(12, Shift 210)]
  [(143, 209)];
mkstate [(8, Shift 212)]
  [(144, 211)];
mkstate [(34, Shift 216); (48, Shift 217)]
  [(145, 213); (146, 214); (147, 215)];
mkstate [(34, Shift 216)]
  [(146, 218)];
mkstate [(48, Shift 217)]
  [(147, 219)];
mkstate [(22, Shift 191); (28, Shift 189); (30, Shift 221); (35, Shift 186); (36, Shift 187); (37, Shift 63); (39, Shift 185); (41, Shift 184); (42, Shift 188); (51, Shift 60); (55, Shift 79); (57, Shift 65)]
  [(100, 62); (101, 192); (134, 196); (136, 222); (138, 190); (140, 183); (148, 220); (154, 182); (156, 64)];
mkstate [(33, Shift 224)]
  [(149, 223)];
mkstate [(38, Shift 226)]
  [(150, 225)];
mkstate [(29, Shift 228)]
  [(151, 227)];
mkstate [(53, Shift 74)]
  [(152, 229)];
mkstate [(52, Shift 231)]
  [(153, 230)];
mkstate [(55, Shift 79)]
  [(154, 232)];
mkstate [(56, Shift 80)]
  [(155, 233)];
mkstate [(57, Shift 65)]
  [(156, 234)];
mkstate [(58, Shift 92)]
  [(157, 235)];
mkstate [(54, Shift 159)]
  [(158, 236)];
mkstate [(63, Reduce (BS ByteString) 0)]
  [];
mkstate [(2, Reduce (BN ByteString) 0); (4, Reduce (BN ByteString) 0); (5, Reduce (BN ByteString) 0); (8, Reduce (BN ByteString) 0); (9, Reduce (BN ByteString) 0); (10, Reduce (BN ByteString) 0); (11, Reduce (BN ByteString) 0); (12, Reduce (BN ByteString) 0); (13, Reduce (BN ByteString) 0); (14, Reduce (BN ByteString) 0); (15, Reduce (BN ByteString) 0); (21, Reduce (BN ByteString) 0); (24, Reduce (BN ByteString) 0); (25, Reduce (BN ByteString) 0); (26, Reduce (BN ByteString) 0); (27, Reduce (BN ByteString) 0); (29, Reduce (BN ByteString) 0); (30, Reduce (BN ByteString) 0); (33, Reduce (BN ByteString) 0); (34, Reduce (BN ByteString) 0); (37, Reduce (BN ByteString) 0); (38, Reduce (BN ByteString) 0); (43, Reduce (BN ByteString) 0); (45, Reduce (BN ByteString) 0); (46, Reduce (BN ByteString) 0); (47, Reduce (BN ByteString) 0); (48, Reduce (BN ByteString) 0); (50, Reduce (BN ByteString) 0); (51, Reduce (BN ByteString) 0); (52, Reduce (BN ByteString) 0); (53, Reduce (BN ByteString) 0); (55, Reduce (BN ByteString) 0); (56, Reduce (BN ByteString) 0); (57, Reduce (BN ByteString) 0); (58, Reduce (BN ByteString) 0); (63, Reduce (BN ByteString) 0)]
  [];
mkstate [(63, Reduce (BS TypeNameIdentifier) 0)]
  [];
mkstate [(2, Reduce (BN TypeNameIdentifier) 0); (4, Reduce (BN TypeNameIdentifier) 0); (5, Reduce (BN TypeNameIdentifier) 0); (8, Reduce (BN TypeNameIdentifier) 0); (9, Reduce (BN TypeNameIdentifier) 0); (10, Reduce (BN TypeNameIdentifier) 0); (11, Reduce (BN TypeNameIdentifier) 0); (12, Reduce (BN TypeNameIdentifier) 0); (13, Reduce (BN TypeNameIdentifier) 0); (14, Reduce (BN TypeNameIdentifier) 0); (15, Reduce (BN TypeNameIdentifier) 0); (21, Reduce (BN TypeNameIdentifier) 0); (24, Reduce (BN TypeNameIdentifier) 0); (25, Reduce (BN TypeNameIdentifier) 0); (26, Reduce (BN TypeNameIdentifier) 0); (27, Reduce (BN TypeNameIdentifier) 0); (29, Reduce (BN TypeNameIdentifier) 0); (30, Reduce (BN TypeNameIdentifier) 0); (33, Reduce (BN TypeNameIdentifier) 0); (34, Reduce (BN TypeNameIdentifier) 0); (37, Reduce (BN TypeNameIdentifier) 0); (38, Reduce (BN TypeNameIdentifier) 0); (43, Reduce (BN TypeNameIdentifier) 0); (45, Reduce (BN TypeNameIdentifier) 0); (46, Reduce (BN TypeNameIdentifier) 0); (47, Reduce (BN TypeNameIdentifier) 0); (48, Reduce (BN TypeNameIdentifier) 0); (50, Reduce (BN TypeNameIdentifier) 0); (51, Reduce (BN TypeNameIdentifier) 0); (52, Reduce (BN TypeNameIdentifier) 0); (53, Reduce (BN TypeNameIdentifier) 0); (55, Reduce (BN TypeNameIdentifier) 0); (56, Reduce (BN TypeNameIdentifier) 0); (57, Reduce (BN TypeNameIdentifier) 0); (58, Reduce (BN TypeNameIdentifier) 0); (63, Reduce (BN TypeNameIdentifier) 0)]
  [];
mkstate [(2, Reduce (BN TypeNameIdentifier) 1); (4, Reduce (BN TypeNameIdentifier) 1); (5, Reduce (BN TypeNameIdentifier) 1); (8, Reduce (BN TypeNameIdentifier) 1); (9, Reduce (BN TypeNameIdentifier) 1); (10, Reduce (BN TypeNameIdentifier) 1); (11, Reduce (BN TypeNameIdentifier) 1); (12, Reduce (BN TypeNameIdentifier) 1); (13, Reduce (BN TypeNameIdentifier) 1); (14, Reduce (BN TypeNameIdentifier) 1); (15, Reduce (BN TypeNameIdentifier) 1); (21, Reduce (BN TypeNameIdentifier) 1); (24, Reduce (BN TypeNameIdentifier) 1); (25, Reduce (BN TypeNameIdentifier) 1); (26, Reduce (BN TypeNameIdentifier) 1); (27, Reduce (BN TypeNameIdentifier) 1); (29, Reduce (BN TypeNameIdentifier) 1); (30, Reduce (BN TypeNameIdentifier) 1); (33, Reduce (BN TypeNameIdentifier) 1); (34, Reduce (BN TypeNameIdentifier) 1); (37, Reduce (BN TypeNameIdentifier) 1); (38, Reduce (BN TypeNameIdentifier) 1); (43, Reduce (BN TypeNameIdentifier) 1); (45, Reduce (BN TypeNameIdentifier) 1); (46, Reduce (BN TypeNameIdentifier) 1); (47, Reduce (BN TypeNameIdentifier) 1); (48, Reduce (BN TypeNameIdentifier) 1); (50, Reduce (BN TypeNameIdentifier) 1); (51, Reduce (BN TypeNameIdentifier) 1); (52, Reduce (BN TypeNameIdentifier) 1); (53, Reduce (BN TypeNameIdentifier) 1); (55, Reduce (BN TypeNameIdentifier) 1); (56, Reduce (BN TypeNameIdentifier) 1); (57, Reduce (BN TypeNameIdentifier) 1); (58, Reduce (BN TypeNameIdentifier) 1); (63, Reduce (BN TypeNameIdentifier) 1)]
  [];
mkstate [(2, Reduce (BN TypeNameIdentifier) 2); (4, Reduce (BN TypeNameIdentifier) 2); (5, Reduce (BN TypeNameIdentifier) 2); (8, Reduce (BN TypeNameIdentifier) 2); (9, Reduce (BN TypeNameIdentifier) 2); (10, Reduce (BN TypeNameIdentifier) 2); (11, Reduce (BN TypeNameIdentifier) 2); (12, Reduce (BN TypeNameIdentifier) 2); (13, Reduce (BN TypeNameIdentifier) 2); (14, Reduce (BN TypeNameIdentifier) 2); (15, Reduce (BN TypeNameIdentifier) 2); (21, Reduce (BN TypeNameIdentifier) 2); (24, Reduce (BN TypeNameIdentifier) 2); (25, Reduce (BN TypeNameIdentifier) 2); (26, Reduce (BN TypeNameIdentifier) 2); (27, Reduce (BN TypeNameIdentifier) 2); (29, Reduce (BN TypeNameIdentifier) 2); (30, Reduce (BN TypeNameIdentifier) 2); (33, Reduce (BN TypeNameIdentifier) 2); (34, Reduce (BN TypeNameIdentifier) 2); (37, Reduce (BN TypeNameIdentifier) 2); (38, Reduce (BN TypeNameIdentifier) 2); (43, Reduce (BN TypeNameIdentifier) 2); (45, Reduce (BN TypeNameIdentifier) 2); (46, Reduce (BN TypeNameIdentifier) 2); (47, Reduce (BN TypeNameIdentifier) 2); (48, Reduce (BN TypeNameIdentifier) 2); (50, Reduce (BN TypeNameIdentifier) 2); (51, Reduce (BN TypeNameIdentifier) 2); (52, Reduce (BN TypeNameIdentifier) 2); (53, Reduce (BN TypeNameIdentifier) 2); (55, Reduce (BN TypeNameIdentifier) 2); (56, Reduce (BN TypeNameIdentifier) 2); (57, Reduce (BN TypeNameIdentifier) 2); (58, Reduce (BN TypeNameIdentifier) 2); (63, Reduce (BN TypeNameIdentifier) 2)]
  [];
mkstate [(2, Reduce (BN TypeOrEnumLikeIdentifierId) 0); (4, Reduce (BN TypeOrEnumLikeIdentifierId) 0); (5, Reduce (BN TypeOrEnumLikeIdentifierId) 0); (8, Reduce (BN TypeOrEnumLikeIdentifierId) 0); (9, Reduce (BN TypeOrEnumLikeIdentifierId) 0); (10, Reduce (BN TypeOrEnumLikeIdentifierId) 0); (11, Reduce (BN TypeOrEnumLikeIdentifierId) 0); (12, Reduce (BN TypeOrEnumLikeIdentifierId) 0); (13, Reduce (BN TypeOrEnumLikeIdentifierId) 0); (14, Reduce (BN TypeOrEnumLikeIdentifierId) 0); (15, Reduce (BN TypeOrEnumLikeIdentifierId) 0); (21, Reduce (BN TypeOrEnumLikeIdentifierId) 0); (24, Reduce (BN TypeOrEnumLikeIdentifierId) 0); (25, Reduce (BN TypeOrEnumLikeIdentifierId) 0); (26, Reduce (BN TypeOrEnumLikeIdentifierId) 0); (27, Reduce (BN TypeOrEnumLikeIdentifierId) 0); (29, Reduce (BN TypeOrEnumLikeIdentifierId) 0); (30, Reduce (BN TypeOrEnumLikeIdentifierId) 0); (33, Reduce (BN TypeOrEnumLikeIdentifierId) 0); (34, Reduce (BN TypeOrEnumLikeIdentifierId) 0); (37, Reduce (BN TypeOrEnumLikeIdentifierId) 0); (38, Reduce (BN TypeOrEnumLikeIdentifierId) 0); (43, Reduce (BN TypeOrEnumLikeIdentifierId) 0); (45, Reduce (BN TypeOrEnumLikeIdentifierId) 0); (46, Reduce (BN TypeOrEnumLikeIdentifierId) 0); (47, Reduce (BN TypeOrEnumLikeIdentifierId) 0); (48, Reduce (BN TypeOrEnumLikeIdentifierId) 0); (50, Reduce (BN TypeOrEnumLikeIdentifierId) 0); (51, Reduce (BN TypeOrEnumLikeIdentifierId) 0); (52, Reduce (BN TypeOrEnumLikeIdentifierId) 0); (53, Reduce (BN TypeOrEnumLikeIdentifierId) 0); (55, Reduce (BN TypeOrEnumLikeIdentifierId) 0); (56, Reduce (BN TypeOrEnumLikeIdentifierId) 0); (57, Reduce (BN TypeOrEnumLikeIdentifierId) 0); (58, Reduce (BN TypeOrEnumLikeIdentifierId) 0); (63, Reduce (BN TypeOrEnumLikeIdentifierId) 0)]
  [];
mkstate [(63, Reduce (BS ImportedName) 0)]
  [];
mkstate [(24, Reduce (BN ImportedName) 0); (25, Reduce (BN ImportedName) 0); (33, Reduce (BN ImportedName) 0); (37, Reduce (BN ImportedName) 0); (47, Shift 237); (51, Reduce (BN ImportedName) 0); (57, Reduce (BN ImportedName) 0); (63, Reduce (BN ImportedName) 0)]
  [];
mkstate [(25, Shift 238); (63, Reduce (BS ImportDeclarations) 0)]
  [];
mkstate [(37, Shift 63); (51, Shift 60); (57, Shift 65)]
  [(100, 62); (101, 67); (102, 240); (156, 64); (302, 239)];
mkstate [(63, Reduce (BS MetaIdentifier) 0)]
  [];
mkstate [(4, Shift 241); (8, Reduce (BN MetaIdentifier) 0); (9, Reduce (BN MetaIdentifier) 0); (13, Reduce (BN MetaIdentifier) 0); (21, Reduce (BN MetaIdentifier) 0); (37, Reduce (BN MetaIdentifier) 0); (43, Reduce (BN MetaIdentifier) 0); (50, Reduce (BN MetaIdentifier) 0); (51, Reduce (BN MetaIdentifier) 0); (53, Reduce (BN MetaIdentifier) 0); (55, Reduce (BN MetaIdentifier) 0); (57, Reduce (BN MetaIdentifier) 0); (63, Reduce (BN MetaIdentifier) 0)]
  [];
mkstate [(4, Shift 242)]
  [];
mkstate [(2, Reduce (BN MetaIdentifier) 3); (5, Reduce (BN MetaIdentifier) 3); (8, Reduce (BN MetaIdentifier) 3); (9, Reduce (BN MetaIdentifier) 3); (10, Reduce (BN MetaIdentifier) 3); (11, Reduce (BN MetaIdentifier) 3); (12, Reduce (BN MetaIdentifier) 3); (13, Reduce (BN MetaIdentifier) 3); (14, Reduce (BN MetaIdentifier) 3); (15, Reduce (BN MetaIdentifier) 3); (21, Reduce (BN MetaIdentifier) 3); (26, Reduce (BN MetaIdentifier) 3); (27, Reduce (BN MetaIdentifier) 3); (30, Reduce (BN MetaIdentifier) 3); (33, Reduce (BN MetaIdentifier) 3); (34, Reduce (BN MetaIdentifier) 3); (37, Reduce (BN MetaIdentifier) 3); (38, Reduce (BN MetaIdentifier) 3); (43, Reduce (BN MetaIdentifier) 3); (45, Reduce (BN MetaIdentifier) 3); (48, Reduce (BN MetaIdentifier) 3); (50, Reduce (BN MetaIdentifier) 3); (51, Reduce (BN MetaIdentifier) 3); (53, Reduce (BN MetaIdentifier) 3); (55, Reduce (BN MetaIdentifier) 3); (56, Reduce (BN MetaIdentifier) 3); (57, Reduce (BN MetaIdentifier) 3); (58, Reduce (BN MetaIdentifier) 3); (63, Reduce (BN MetaIdentifier) 3)]
  [];
mkstate [(2, Reduce (BN HexNumber) 0); (4, Reduce (BN HexNumber) 0); (5, Reduce (BN HexNumber) 0); (11, Reduce (BN HexNumber) 0); (13, Reduce (BN HexNumber) 0); (26, Reduce (BN HexNumber) 0); (27, Reduce (BN HexNumber) 0); (30, Reduce (BN HexNumber) 0); (33, Reduce (BN HexNumber) 0); (34, Reduce (BN HexNumber) 0); (38, Reduce (BN HexNumber) 0); (45, Reduce (BN HexNumber) 0); (48, Reduce (BN HexNumber) 0); (63, Reduce (BN HexNumber) 0)]
  [];
mkstate [(63, Reduce (BS VariableIdentifier) 0)]
  [];
mkstate [(2, Reduce (BN VariableIdentifier) 0); (3, Reduce (BN VariableIdentifier) 0); (5, Reduce (BN VariableIdentifier) 0); (7, Reduce (BN VariableIdentifier) 0); (8, Reduce (BN VariableIdentifier) 0); (9, Reduce (BN VariableIdentifier) 0); (11, Reduce (BN VariableIdentifier) 0); (13, Reduce (BN VariableIdentifier) 0); (26, Reduce (BN VariableIdentifier) 0); (27, Reduce (BN VariableIdentifier) 0); (29, Reduce (BN VariableIdentifier) 0); (30, Reduce (BN VariableIdentifier) 0); (33, Reduce (BN VariableIdentifier) 0); (34, Reduce (BN VariableIdentifier) 0); (37, Reduce (BN VariableIdentifier) 0); (38, Reduce (BN VariableIdentifier) 0); (43, Reduce (BN VariableIdentifier) 0); (45, Reduce (BN VariableIdentifier) 0); (48, Reduce (BN VariableIdentifier) 0); (50, Reduce (BN VariableIdentifier) 0); (51, Reduce (BN VariableIdentifier) 0); (53, Reduce (BN VariableIdentifier) 0); (55, Reduce (BN VariableIdentifier) 0); (56, Reduce (BN VariableIdentifier) 0); (57, Reduce (BN VariableIdentifier) 0); (58, Reduce (BN VariableIdentifier) 0); (63, Reduce (BN VariableIdentifier) 0)]
  [];
mkstate [(2, Reduce (BN VariableIdentifier) 1); (3, Reduce (BN VariableIdentifier) 1); (5, Reduce (BN VariableIdentifier) 1); (7, Reduce (BN VariableIdentifier) 1); (8, Reduce (BN VariableIdentifier) 1); (9, Reduce (BN VariableIdentifier) 1); (11, Reduce (BN VariableIdentifier) 1); (13, Reduce (BN VariableIdentifier) 1); (26, Reduce (BN VariableIdentifier) 1); (27, Reduce (BN VariableIdentifier) 1); (29, Reduce (BN VariableIdentifier) 1); (30, Reduce (BN VariableIdentifier) 1); (33, Reduce (BN VariableIdentifier) 1); (34, Reduce (BN VariableIdentifier) 1); (37, Reduce (BN VariableIdentifier) 1); (38, Reduce (BN VariableIdentifier) 1); (43, Reduce (BN VariableIdentifier) 1); (45, Reduce (BN VariableIdentifier) 1); (48, Reduce (BN VariableIdentifier) 1); (50, Reduce (BN VariableIdentifier) 1); (51, Reduce (BN VariableIdentifier) 1); (53, Reduce (BN VariableIdentifier) 1); (55, Reduce (BN VariableIdentifier) 1); (56, Reduce (BN VariableIdentifier) 1); (57, Reduce (BN VariableIdentifier) 1); (58, Reduce (BN VariableIdentifier) 1); (63, Reduce (BN VariableIdentifier) 1)]
  [];
mkstate [(4, Shift 243)]
  [];
mkstate [(2, Reduce (BN RegularId) 0); (3, Reduce (BN RegularId) 0); (4, Reduce (BN RegularId) 0); (5, Reduce (BN RegularId) 0); (6, Reduce (BN RegularId) 0); (7, Reduce (BN RegularId) 0); (8, Reduce (BN RegularId) 0); (9, Reduce (BN RegularId) 0); (10, Reduce (BN RegularId) 0); (11, Reduce (BN RegularId) 0); (13, Reduce (BN RegularId) 0); (15, Reduce (BN RegularId) 0); (17, Reduce (BN RegularId) 0); (18, Reduce (BN RegularId) 0); (21, Reduce (BN RegularId) 0); (26, Reduce (BN RegularId) 0); (27, Reduce (BN RegularId) 0); (29, Reduce (BN RegularId) 0); (30, Reduce (BN RegularId) 0); (33, Reduce (BN RegularId) 0); (34, Reduce (BN RegularId) 0); (37, Reduce (BN RegularId) 0); (38, Reduce (BN RegularId) 0); (43, Reduce (BN RegularId) 0); (45, Reduce (BN RegularId) 0); (47, Reduce (BN RegularId) 0); (48, Reduce (BN RegularId) 0); (50, Reduce (BN RegularId) 0); (51, Reduce (BN RegularId) 0); (53, Reduce (BN RegularId) 0); (55, Reduce (BN RegularId) 0); (56, Reduce (BN RegularId) 0); (57, Reduce (BN RegularId) 0); (58, Reduce (BN RegularId) 0); (63, Reduce (BN RegularId) 0)]
  [];
mkstate [(2, Reduce (BN SpecialId) 0); (3, Reduce (BN SpecialId) 0); (4, Reduce (BN SpecialId) 0); (5, Reduce (BN SpecialId) 0); (7, Reduce (BN SpecialId) 0); (8, Reduce (BN SpecialId) 0); (9, Reduce (BN SpecialId) 0); (11, Reduce (BN SpecialId) 0); (13, Reduce (BN SpecialId) 0); (26, Reduce (BN SpecialId) 0); (27, Reduce (BN SpecialId) 0); (29, Reduce (BN SpecialId) 0); (30, Reduce (BN SpecialId) 0); (33, Reduce (BN SpecialId) 0); (34, Reduce (BN SpecialId) 0); (37, Reduce (BN SpecialId) 0); (38, Reduce (BN SpecialId) 0); (43, Reduce (BN SpecialId) 0); (45, Reduce (BN SpecialId) 0); (47, Reduce (BN SpecialId) 0); (48, Reduce (BN SpecialId) 0); (50, Reduce (BN SpecialId) 0); (51, Reduce (BN SpecialId) 0); (53, Reduce (BN SpecialId) 0); (55, Reduce (BN SpecialId) 0); (56, Reduce (BN SpecialId) 0); (57, Reduce (BN SpecialId) 0); (58, Reduce (BN SpecialId) 0); (63, Reduce (BN SpecialId) 0)]
  [];
mkstate [(37, Shift 63); (51, Shift 60); (55, Shift 79); (56, Shift 80); (57, Shift 65); (63, Reduce (BS BuiltinArguments) 0)]
  [(100, 62); (101, 78); (105, 244); (154, 76); (155, 77); (156, 64)];
mkstate [(2, Reduce (BN BuiltinArguments) 1); (5, Reduce (BN BuiltinArguments) 1); (13, Reduce (BN BuiltinArguments) 1); (26, Reduce (BN BuiltinArguments) 1); (27, Reduce (BN BuiltinArguments) 1); (30, Reduce (BN BuiltinArguments) 1); (33, Reduce (BN BuiltinArguments) 1); (34, Reduce (BN BuiltinArguments) 1); (37, Reduce (BN BuiltinArguments) 1); (38, Reduce (BN BuiltinArguments) 1); (45, Reduce (BN BuiltinArguments) 1); (48, Reduce (BN BuiltinArguments) 1); (51, Reduce (BN BuiltinArguments) 1); (55, Reduce (BN BuiltinArguments) 1); (56, Reduce (BN BuiltinArguments) 1); (57, Reduce (BN BuiltinArguments) 1); (63, Reduce (BN BuiltinArguments) 1)]
  [];
mkstate [(9, Shift 245)]
  [];
mkstate [(63, Reduce (BS RemainingTypes) 0)]
  [];
mkstate [(8, Shift 99); (9, Reduce (BN RemainingTypes) 0); (12, Reduce (BN RemainingTypes) 0); (14, Reduce (BN RemainingTypes) 0); (15, Reduce (BN RemainingTypes) 0); (30, Reduce (BN RemainingTypes) 0); (37, Shift 63); (43, Shift 103); (50, Shift 73); (51, Shift 60); (53, Shift 74); (57, Shift 65); (58, Shift 92); (63, Reduce (BN RemainingTypes) 0)]
  [(100, 62); (101, 91); (104, 100); (110, 247); (111, 102); (152, 72); (156, 64); (157, 101); (310, 246)];
mkstate [(8, Shift 114); (37, Shift 63); (50, Shift 73); (51, Shift 60); (53, Shift 74); (57, Shift 65)]
  [(100, 62); (101, 91); (104, 113); (111, 115); (115, 248); (152, 72); (156, 64)];
mkstate [(8, Shift 87); (22, Shift 89); (37, Shift 63); (43, Shift 86); (50, Shift 73); (51, Shift 60); (53, Shift 74); (57, Shift 65); (58, Shift 92)]
  [(100, 62); (101, 91); (104, 85); (107, 97); (108, 96); (109, 249); (111, 88); (152, 72); (156, 64); (157, 90)];
mkstate [(9, Reduce (BN RemainingTypes) 4); (12, Reduce (BN RemainingTypes) 4); (14, Reduce (BN RemainingTypes) 4); (15, Reduce (BN RemainingTypes) 4); (30, Reduce (BN RemainingTypes) 4); (63, Reduce (BN RemainingTypes) 4)]
  [];
mkstate [(58, Shift 92)]
  [(157, 250)];
mkstate [(9, Reduce (BN RemainingTypes) 6); (12, Reduce (BN RemainingTypes) 6); (14, Reduce (BN RemainingTypes) 6); (15, Reduce (BN RemainingTypes) 6); (30, Reduce (BN RemainingTypes) 6); (63, Reduce (BN RemainingTypes) 6)]
  [];
mkstate [(2, Reduce (BN MetaIdentifier) 0); (4, Shift 241); (5, Reduce (BN MetaIdentifier) 0); (8, Reduce (BN MetaIdentifier) 0); (9, Reduce (BN MetaIdentifier) 0); (11, Reduce (BN MetaIdentifier) 0); (12, Reduce (BN MetaIdentifier) 0); (13, Reduce (BN MetaIdentifier) 0); (14, Reduce (BN MetaIdentifier) 0); (15, Reduce (BN MetaIdentifier) 0); (26, Reduce (BN MetaIdentifier) 0); (27, Reduce (BN MetaIdentifier) 0); (29, Shift 251); (30, Reduce (BN MetaIdentifier) 0); (33, Reduce (BN MetaIdentifier) 0); (34, Reduce (BN MetaIdentifier) 0); (37, Reduce (BN MetaIdentifier) 0); (38, Reduce (BN MetaIdentifier) 0); (43, Reduce (BN MetaIdentifier) 0); (45, Reduce (BN MetaIdentifier) 0); (48, Reduce (BN MetaIdentifier) 0); (50, Reduce (BN MetaIdentifier) 0); (51, Reduce (BN MetaIdentifier) 0); (53, Reduce (BN MetaIdentifier) 0); (57, Reduce (BN MetaIdentifier) 0); (58, Reduce (BN MetaIdentifier) 0); (63, Reduce (BN MetaIdentifier) 0)]
  [];
mkstate [(2, Reduce (BN TemplateTypeId) 0); (4, Reduce (BN TemplateTypeId) 0); (5, Reduce (BN TemplateTypeId) 0); (8, Reduce (BN TemplateTypeId) 0); (9, Reduce (BN TemplateTypeId) 0); (11, Reduce (BN TemplateTypeId) 0); (12, Reduce (BN TemplateTypeId) 0); (13, Reduce (BN TemplateTypeId) 0); (14, Reduce (BN TemplateTypeId) 0); (15, Reduce (BN TemplateTypeId) 0); (26, Reduce (BN TemplateTypeId) 0); (27, Reduce (BN TemplateTypeId) 0); (30, Reduce (BN TemplateTypeId) 0); (33, Reduce (BN TemplateTypeId) 0); (34, Reduce (BN TemplateTypeId) 0); (37, Reduce (BN TemplateTypeId) 0); (38, Reduce (BN TemplateTypeId) 0); (43, Reduce (BN TemplateTypeId) 0); (45, Reduce (BN TemplateTypeId) 0); (48, Reduce (BN TemplateTypeId) 0); (50, Reduce (BN TemplateTypeId) 0); (51, Reduce (BN TemplateTypeId) 0); (53, Reduce (BN TemplateTypeId) 0); (57, Reduce (BN TemplateTypeId) 0); (58, Reduce (BN TemplateTypeId) 0); (63, Reduce (BN TemplateTypeId) 0)]
  [];
mkstate [(63, Reduce (BS FunctionSignature) 0)]
  [];
mkstate [(14, Shift 252)]
  [];
mkstate [(63, Reduce (BS ScillaType) 0)]
  [];
mkstate [(9, Reduce (BN ScillaType) 0); (12, Reduce (BN ScillaType) 0); (15, Reduce (BN ScillaType) 0); (30, Reduce (BN ScillaType) 0); (63, Reduce (BN ScillaType) 0)]
  [];
mkstate [(9, Reduce (BN ScillaType) 1); (12, Reduce (BN ScillaType) 1); (14, Shift 252); (15, Reduce (BN ScillaType) 1); (30, Reduce (BN ScillaType) 1); (63, Reduce (BN ScillaType) 1)]
  [];
mkstate [(63, Reduce (BS TypeArgument) 0)]
  [];
mkstate [(8, Shift 87); (22, Shift 89); (37, Shift 63); (43, Shift 86); (50, Shift 73); (51, Shift 60); (53, Shift 74); (57, Shift 65); (58, Shift 92)]
  [(100, 62); (101, 91); (104, 85); (107, 97); (108, 96); (109, 253); (111, 88); (152, 72); (156, 64); (157, 90)];
mkstate [(2, Reduce (BN TypeArgument) 1); (5, Reduce (BN TypeArgument) 1); (8, Reduce (BN TypeArgument) 1); (9, Reduce (BN TypeArgument) 1); (11, Reduce (BN TypeArgument) 1); (12, Reduce (BN TypeArgument) 1); (13, Reduce (BN TypeArgument) 1); (14, Reduce (BN TypeArgument) 1); (15, Reduce (BN TypeArgument) 1); (26, Reduce (BN TypeArgument) 1); (27, Reduce (BN TypeArgument) 1); (30, Reduce (BN TypeArgument) 1); (33, Reduce (BN TypeArgument) 1); (34, Reduce (BN TypeArgument) 1); (37, Reduce (BN TypeArgument) 1); (38, Reduce (BN TypeArgument) 1); (43, Reduce (BN TypeArgument) 1); (45, Reduce (BN TypeArgument) 1); (48, Reduce (BN TypeArgument) 1); (50, Reduce (BN TypeArgument) 1); (51, Reduce (BN TypeArgument) 1); (53, Reduce (BN TypeArgument) 1); (57, Reduce (BN TypeArgument) 1); (58, Reduce (BN TypeArgument) 1); (63, Reduce (BN TypeArgument) 1)]
  [];
mkstate [(2, Reduce (BN TypeArgument) 2); (5, Reduce (BN TypeArgument) 2); (8, Reduce (BN TypeArgument) 2); (9, Reduce (BN TypeArgument) 2); (11, Reduce (BN TypeArgument) 2); (12, Reduce (BN TypeArgument) 2); (13, Reduce (BN TypeArgument) 2); (14, Reduce (BN TypeArgument) 2); (15, Reduce (BN TypeArgument) 2); (26, Reduce (BN TypeArgument) 2); (27, Reduce (BN TypeArgument) 2); (30, Reduce (BN TypeArgument) 2); (33, Reduce (BN TypeArgument) 2); (34, Reduce (BN TypeArgument) 2); (37, Reduce (BN TypeArgument) 2); (38, Reduce (BN TypeArgument) 2); (43, Reduce (BN TypeArgument) 2); (45, Reduce (BN TypeArgument) 2); (48, Reduce (BN TypeArgument) 2); (50, Reduce (BN TypeArgument) 2); (51, Reduce (BN TypeArgument) 2); (53, Reduce (BN TypeArgument) 2); (57, Reduce (BN TypeArgument) 2); (58, Reduce (BN TypeArgument) 2); (63, Reduce (BN TypeArgument) 2)]
  [];
mkstate [(2, Reduce (BN TypeArgument) 3); (5, Reduce (BN TypeArgument) 3); (8, Reduce (BN TypeArgument) 3); (9, Reduce (BN TypeArgument) 3); (11, Reduce (BN TypeArgument) 3); (12, Reduce (BN TypeArgument) 3); (13, Reduce (BN TypeArgument) 3); (14, Reduce (BN TypeArgument) 3); (15, Reduce (BN TypeArgument) 3); (26, Reduce (BN TypeArgument) 3); (27, Reduce (BN TypeArgument) 3); (30, Reduce (BN TypeArgument) 3); (33, Reduce (BN TypeArgument) 3); (34, Reduce (BN TypeArgument) 3); (37, Reduce (BN TypeArgument) 3); (38, Reduce (BN TypeArgument) 3); (43, Reduce (BN TypeArgument) 3); (45, Reduce (BN TypeArgument) 3); (48, Reduce (BN TypeArgument) 3); (50, Reduce (BN TypeArgument) 3); (51, Reduce (BN TypeArgument) 3); (53, Reduce (BN TypeArgument) 3); (57, Reduce (BN TypeArgument) 3); (58, Reduce (BN TypeArgument) 3); (63, Reduce (BN TypeArgument) 3)]
  [];
mkstate [(8, Shift 114); (37, Shift 63); (50, Shift 73); (51, Shift 60); (53, Shift 74); (57, Shift 65)]
  [(100, 62); (101, 91); (104, 113); (111, 115); (115, 254); (152, 72); (156, 64)];
mkstate [(63, Reduce (BS AddressType) 0)]
  [];
mkstate [(29, Shift 251)]
  [];
mkstate [(63, Reduce (BS AddressTypeFieldList) 0)]
  [];
mkstate [(12, Shift 110); (30, Reduce (BN AddressTypeFieldList) 0); (63, Reduce (BN AddressTypeFieldList) 0)]
  [(113, 256); (313, 255)];
mkstate [(37, Shift 63); (51, Shift 60); (55, Shift 79); (56, Shift 80); (57, Shift 65)]
  [(100, 62); (101, 78); (105, 257); (154, 76); (155, 77); (156, 64)];
mkstate [(63, Reduce (BS NextAddressTypeField) 0)]
  [];
mkstate [(38, Shift 108)]
  [(114, 258)];
mkstate [(63, Reduce (BS AddressTypeField) 0)]
  [];
mkstate [(63, Reduce (BS TypeMapKey) 0)]
  [];
mkstate [(8, Reduce (BN TypeMapKey) 0); (37, Reduce (BN TypeMapKey) 0); (43, Reduce (BN TypeMapKey) 0); (50, Reduce (BN TypeMapKey) 0); (51, Reduce (BN TypeMapKey) 0); (53, Reduce (BN TypeMapKey) 0); (57, Reduce (BN TypeMapKey) 0); (63, Reduce (BN TypeMapKey) 0)]
  [];
mkstate [(37, Shift 63); (50, Shift 73); (51, Shift 60); (53, Shift 74); (57, Shift 65)]
  [(100, 62); (101, 91); (104, 259); (111, 260); (152, 72); (156, 64)];
mkstate [(8, Reduce (BN TypeMapKey) 3); (37, Reduce (BN TypeMapKey) 3); (43, Reduce (BN TypeMapKey) 3); (50, Reduce (BN TypeMapKey) 3); (51, Reduce (BN TypeMapKey) 3); (53, Reduce (BN TypeMapKey) 3); (57, Reduce (BN TypeMapKey) 3); (63, Reduce (BN TypeMapKey) 3)]
  [];
mkstate [(63, Reduce (BS TypeMapValue) 0)]
  [];
mkstate [(2, Reduce (BN TypeMapValue) 0); (5, Reduce (BN TypeMapValue) 0); (8, Reduce (BN TypeMapValue) 0); (9, Reduce (BN TypeMapValue) 0); (11, Reduce (BN TypeMapValue) 0); (12, Reduce (BN TypeMapValue) 0); (13, Reduce (BN TypeMapValue) 0); (14, Reduce (BN TypeMapValue) 0); (15, Reduce (BN TypeMapValue) 0); (26, Reduce (BN TypeMapValue) 0); (27, Reduce (BN TypeMapValue) 0); (30, Reduce (BN TypeMapValue) 0); (33, Reduce (BN TypeMapValue) 0); (34, Reduce (BN TypeMapValue) 0); (37, Reduce (BN TypeMapValue) 0); (38, Reduce (BN TypeMapValue) 0); (43, Reduce (BN TypeMapValue) 0); (45, Reduce (BN TypeMapValue) 0); (48, Reduce (BN TypeMapValue) 0); (50, Reduce (BN TypeMapValue) 0); (51, Reduce (BN TypeMapValue) 0); (53, Reduce (BN TypeMapValue) 0); (57, Reduce (BN TypeMapValue) 0); (58, Reduce (BN TypeMapValue) 0); (63, Reduce (BN TypeMapValue) 0)]
  [];
mkstate [(8, Shift 114); (37, Shift 63); (50, Shift 73); (51, Shift 60); (53, Shift 74); (57, Shift 65)]
  [(100, 62); (101, 91); (104, 113); (111, 115); (115, 261); (152, 72); (156, 64)];
mkstate [(8, Shift 119); (37, Shift 63); (43, Shift 118); (50, Shift 73); (51, Shift 60); (53, Shift 74); (57, Shift 65)]
  [(100, 62); (101, 91); (104, 139); (111, 120); (116, 140); (124, 262); (152, 72); (156, 64)];
mkstate [(2, Reduce (BN TypeMapValue) 3); (5, Reduce (BN TypeMapValue) 3); (8, Reduce (BN TypeMapValue) 3); (9, Reduce (BN TypeMapValue) 3); (11, Reduce (BN TypeMapValue) 3); (12, Reduce (BN TypeMapValue) 3); (13, Reduce (BN TypeMapValue) 3); (14, Reduce (BN TypeMapValue) 3); (15, Reduce (BN TypeMapValue) 3); (26, Reduce (BN TypeMapValue) 3); (27, Reduce (BN TypeMapValue) 3); (30, Reduce (BN TypeMapValue) 3); (33, Reduce (BN TypeMapValue) 3); (34, Reduce (BN TypeMapValue) 3); (37, Reduce (BN TypeMapValue) 3); (38, Reduce (BN TypeMapValue) 3); (43, Reduce (BN TypeMapValue) 3); (45, Reduce (BN TypeMapValue) 3); (48, Reduce (BN TypeMapValue) 3); (50, Reduce (BN TypeMapValue) 3); (51, Reduce (BN TypeMapValue) 3); (53, Reduce (BN TypeMapValue) 3); (57, Reduce (BN TypeMapValue) 3); (58, Reduce (BN TypeMapValue) 3); (63, Reduce (BN TypeMapValue) 3)]
  [];
mkstate [(63, Reduce (BS TypeMapValueArguments) 0)]
  [];
mkstate [(8, Shift 119); (37, Shift 63); (43, Shift 118); (50, Shift 73); (51, Shift 60); (53, Shift 74); (57, Shift 65)]
  [(100, 62); (101, 91); (104, 139); (111, 120); (116, 140); (124, 263); (152, 72); (156, 64)];
mkstate [(8, Reduce (BN TypeMapValueArguments) 1); (9, Reduce (BN TypeMapValueArguments) 1); (37, Reduce (BN TypeMapValueArguments) 1); (43, Reduce (BN TypeMapValueArguments) 1); (50, Reduce (BN TypeMapValueArguments) 1); (51, Reduce (BN TypeMapValueArguments) 1); (53, Reduce (BN TypeMapValueArguments) 1); (57, Reduce (BN TypeMapValueArguments) 1); (63, Reduce (BN TypeMapValueArguments) 1)]
  [];
mkstate [(8, Shift 114); (37, Shift 63); (50, Shift 73); (51, Shift 60); (53, Shift 74); (57, Shift 65)]
  [(100, 62); (101, 91); (104, 113); (111, 115); (115, 264); (152, 72); (156, 64)];
mkstate [(63, Reduce (BS Program) 0)]
  [];
mkstate [(52, Shift 231)]
  [(153, 265)];
mkstate [(63, Reduce (BS LibraryDefinition) 0)]
  [];
mkstate [(37, Shift 63); (51, Shift 60); (57, Shift 65)]
  [(100, 62); (101, 266); (156, 64)];
mkstate [(63, Reduce (BS LibrarySingleDefinition) 0)]
  [];
mkstate [(55, Shift 79)]
  [(154, 267)];
mkstate [(37, Shift 63); (51, Shift 60); (57, Shift 65)]
  [(100, 62); (101, 268); (156, 64)];
mkstate [(63, Reduce (BS TypedIdentifier) 0)]
  [];
mkstate [(3, Shift 135)]
  [(122, 269)];
mkstate [(63, Reduce (BS TypeAnnotation) 0)]
  [];
mkstate [(8, Shift 87); (22, Shift 89); (37, Shift 63); (43, Shift 86); (50, Shift 73); (51, Shift 60); (53, Shift 74); (57, Shift 65); (58, Shift 92)]
  [(100, 62); (101, 91); (104, 85); (107, 97); (108, 96); (109, 270); (111, 88); (152, 72); (156, 64); (157, 90)];
mkstate [(63, Reduce (BS TypeAlternativeClause) 0)]
  [];
mkstate [(37, Shift 63); (51, Shift 60); (57, Shift 65)]
  [(100, 62); (101, 271); (156, 64)];
mkstate [(63, Reduce (BS TypeMapValueAllowingTypeArguments) 0)]
  [];
mkstate [(8, Shift 122); (9, Reduce (BN TypeMapValue) 0); (37, Shift 63); (43, Shift 124); (50, Shift 73); (51, Shift 60); (53, Shift 74); (57, Shift 65); (63, Reduce (BN TypeMapValue) 0)]
  [(100, 62); (101, 71); (104, 123); (117, 273); (152, 72); (156, 64); (317, 272)];
mkstate [(9, Reduce (BN TypeMapValueAllowingTypeArguments) 1); (63, Reduce (BN TypeMapValueAllowingTypeArguments) 1)]
  [];
mkstate [(63, Reduce (BS ContractTypeArguments) 0)]
  [];
mkstate [(8, Shift 99); (11, Shift 274); (37, Shift 63); (43, Shift 103); (50, Shift 73); (51, Shift 60); (53, Shift 74); (57, Shift 65); (58, Shift 92)]
  [(100, 62); (101, 91); (104, 100); (110, 247); (111, 102); (152, 72); (156, 64); (157, 101); (310, 275)];
mkstate [(63, Reduce (BS FullExpression) 0)]
  [];
mkstate [(55, Shift 79)]
  [(154, 276)];
mkstate [(8, Shift 277)]
  [];
mkstate [(2, Reduce (BN AtomicExpression) 0); (5, Reduce (BN AtomicExpression) 0); (13, Reduce (BN AtomicExpression) 0); (26, Reduce (BN AtomicExpression) 0); (27, Reduce (BN AtomicExpression) 0); (30, Reduce (BN AtomicExpression) 0); (33, Reduce (BN AtomicExpression) 0); (34, Reduce (BN AtomicExpression) 0); (37, Shift 63); (38, Reduce (BN AtomicExpression) 0); (45, Reduce (BN AtomicExpression) 0); (48, Reduce (BN AtomicExpression) 0); (51, Shift 60); (55, Shift 79); (56, Shift 80); (57, Shift 65); (63, Reduce (BN AtomicExpression) 0)]
  [(100, 62); (101, 78); (105, 279); (154, 76); (155, 77); (156, 64); (305, 278)];
mkstate [(2, Reduce (BN FullExpression) 4); (5, Reduce (BN FullExpression) 4); (13, Reduce (BN FullExpression) 4); (26, Reduce (BN FullExpression) 4); (27, Reduce (BN FullExpression) 4); (30, Reduce (BN FullExpression) 4); (33, Reduce (BN FullExpression) 4); (34, Reduce (BN FullExpression) 4); (38, Reduce (BN FullExpression) 4); (45, Reduce (BN FullExpression) 4); (48, Reduce (BN FullExpression) 4); (63, Reduce (BN FullExpression) 4)]
  [];
mkstate [(55, Shift 79)]
  [(154, 280)];
mkstate [(37, Shift 63); (51, Shift 60); (55, Shift 79); (56, Shift 80); (57, Shift 65)]
  [(100, 62); (101, 78); (105, 174); (131, 281); (154, 76); (155, 77); (156, 64)];
mkstate [(37, Shift 63); (51, Shift 60); (55, Shift 79); (56, Shift 80); (57, Shift 65)]
  [(100, 62); (101, 78); (105, 282); (154, 76); (155, 77); (156, 64)];
mkstate [(2, Reduce (BN FullExpression) 10); (5, Reduce (BN FullExpression) 10); (10, Shift 142); (13, Reduce (BN FullExpression) 10); (26, Reduce (BN FullExpression) 10); (27, Reduce (BN FullExpression) 10); (30, Reduce (BN FullExpression) 10); (33, Reduce (BN FullExpression) 10); (34, Reduce (BN FullExpression) 10); (37, Shift 63); (38, Reduce (BN FullExpression) 10); (45, Reduce (BN FullExpression) 10); (48, Reduce (BN FullExpression) 10); (51, Shift 60); (55, Shift 79); (56, Shift 80); (57, Shift 65); (63, Reduce (BN FullExpression) 10)]
  [(100, 62); (101, 78); (105, 279); (125, 284); (154, 76); (155, 77); (156, 64); (305, 283)];
mkstate [(58, Shift 92)]
  [(157, 285)];
mkstate [(37, Shift 63); (51, Shift 60); (55, Shift 79); (56, Shift 80); (57, Shift 65)]
  [(100, 62); (101, 78); (105, 286); (154, 76); (155, 77); (156, 64)];
mkstate [(2, Reduce (BN MetaIdentifier) 0); (4, Shift 287); (5, Reduce (BN MetaIdentifier) 0); (10, Reduce (BN MetaIdentifier) 0); (13, Reduce (BN MetaIdentifier) 0); (26, Reduce (BN MetaIdentifier) 0); (27, Reduce (BN MetaIdentifier) 0); (30, Reduce (BN MetaIdentifier) 0); (33, Reduce (BN MetaIdentifier) 0); (34, Reduce (BN MetaIdentifier) 0); (37, Reduce (BN MetaIdentifier) 0); (38, Reduce (BN MetaIdentifier) 0); (45, Reduce (BN MetaIdentifier) 0); (48, Reduce (BN MetaIdentifier) 0); (51, Reduce (BN MetaIdentifier) 0); (52, Shift 231); (55, Reduce (BN MetaIdentifier) 0); (56, Reduce (BN MetaIdentifier) 0); (57, Reduce (BN MetaIdentifier) 0); (63, Reduce (BN MetaIdentifier) 0)]
  [(153, 288)];
mkstate [(2, Reduce (BN AtomicExpression) 1); (5, Reduce (BN AtomicExpression) 1); (13, Reduce (BN AtomicExpression) 1); (26, Reduce (BN AtomicExpression) 1); (27, Reduce (BN AtomicExpression) 1); (30, Reduce (BN AtomicExpression) 1); (33, Reduce (BN AtomicExpression) 1); (34, Reduce (BN AtomicExpression) 1); (38, Reduce (BN AtomicExpression) 1); (45, Reduce (BN AtomicExpression) 1); (48, Reduce (BN AtomicExpression) 1); (63, Reduce (BN AtomicExpression) 1)]
  [];
mkstate [(2, Reduce (BN ValueLiteral) 1); (4, Shift 242); (5, Reduce (BN ValueLiteral) 1); (13, Reduce (BN ValueLiteral) 1); (26, Reduce (BN ValueLiteral) 1); (27, Reduce (BN ValueLiteral) 1); (30, Reduce (BN ValueLiteral) 1); (33, Reduce (BN ValueLiteral) 1); (34, Reduce (BN ValueLiteral) 1); (38, Reduce (BN ValueLiteral) 1); (45, Reduce (BN ValueLiteral) 1); (48, Reduce (BN ValueLiteral) 1); (63, Reduce (BN ValueLiteral) 1)]
  [];
mkstate [(2, Reduce (BN ValueLiteral) 2); (5, Reduce (BN ValueLiteral) 2); (11, Reduce (BN ValueLiteral) 2); (13, Reduce (BN ValueLiteral) 2); (26, Reduce (BN ValueLiteral) 2); (27, Reduce (BN ValueLiteral) 2); (30, Reduce (BN ValueLiteral) 2); (33, Reduce (BN ValueLiteral) 2); (34, Reduce (BN ValueLiteral) 2); (38, Reduce (BN ValueLiteral) 2); (45, Reduce (BN ValueLiteral) 2); (48, Reduce (BN ValueLiteral) 2); (63, Reduce (BN ValueLiteral) 2)]
  [];
mkstate [(8, Shift 114); (37, Shift 63); (50, Shift 73); (51, Shift 60); (53, Shift 74); (57, Shift 65)]
  [(100, 62); (101, 91); (104, 113); (111, 115); (115, 289); (152, 72); (156, 64)];
mkstate [(2, Reduce (BN StringLiteral) 0); (5, Reduce (BN StringLiteral) 0); (11, Reduce (BN StringLiteral) 0); (13, Reduce (BN StringLiteral) 0); (26, Reduce (BN StringLiteral) 0); (27, Reduce (BN StringLiteral) 0); (30, Reduce (BN StringLiteral) 0); (33, Reduce (BN StringLiteral) 0); (34, Reduce (BN StringLiteral) 0); (38, Reduce (BN StringLiteral) 0); (45, Reduce (BN StringLiteral) 0); (48, Reduce (BN StringLiteral) 0); (63, Reduce (BN StringLiteral) 0)]
  [];
mkstate [(63, Reduce (BS PatternMatchExpressionClause) 0)]
  [];
mkstate [(21, Shift 163); (37, Shift 63); (50, Shift 73); (51, Shift 60); (53, Shift 74); (55, Shift 79); (57, Shift 65)]
  [(100, 62); (101, 71); (104, 165); (128, 290); (152, 72); (154, 164); (156, 64)];
mkstate [(63, Reduce (BS Pattern) 0)]
  [];
mkstate [(9, Reduce (BN Pattern) 0); (13, Reduce (BN Pattern) 0); (63, Reduce (BN Pattern) 0)]
  [];
mkstate [(9, Reduce (BN Pattern) 1); (13, Reduce (BN Pattern) 1); (63, Reduce (BN Pattern) 1)]
  [];
mkstate [(8, Shift 170); (9, Reduce (BN Pattern) 2); (13, Reduce (BN Pattern) 2); (21, Shift 167); (37, Shift 63); (50, Shift 73); (51, Shift 60); (53, Shift 74); (55, Shift 79); (57, Shift 65); (63, Reduce (BN Pattern) 2)]
  [(100, 62); (101, 71); (104, 169); (129, 292); (152, 72); (154, 168); (156, 64); (329, 291)];
mkstate [(63, Reduce (BS ArgumentPattern) 0)]
  [];
mkstate [(8, Reduce (BN ArgumentPattern) 0); (9, Reduce (BN ArgumentPattern) 0); (13, Reduce (BN ArgumentPattern) 0); (21, Reduce (BN ArgumentPattern) 0); (37, Reduce (BN ArgumentPattern) 0); (50, Reduce (BN ArgumentPattern) 0); (51, Reduce (BN ArgumentPattern) 0); (53, Reduce (BN ArgumentPattern) 0); (55, Reduce (BN ArgumentPattern) 0); (57, Reduce (BN ArgumentPattern) 0); (63, Reduce (BN ArgumentPattern) 0)]
  [];
mkstate [(8, Reduce (BN ArgumentPattern) 1); (9, Reduce (BN ArgumentPattern) 1); (13, Reduce (BN ArgumentPattern) 1); (21, Reduce (BN ArgumentPattern) 1); (37, Reduce (BN ArgumentPattern) 1); (50, Reduce (BN ArgumentPattern) 1); (51, Reduce (BN ArgumentPattern) 1); (53, Reduce (BN ArgumentPattern) 1); (55, Reduce (BN ArgumentPattern) 1); (57, Reduce (BN ArgumentPattern) 1); (63, Reduce (BN ArgumentPattern) 1)]
  [];
mkstate [(8, Reduce (BN ArgumentPattern) 2); (9, Reduce (BN ArgumentPattern) 2); (13, Reduce (BN ArgumentPattern) 2); (21, Reduce (BN ArgumentPattern) 2); (37, Reduce (BN ArgumentPattern) 2); (50, Reduce (BN ArgumentPattern) 2); (51, Reduce (BN ArgumentPattern) 2); (53, Reduce (BN ArgumentPattern) 2); (55, Reduce (BN ArgumentPattern) 2); (57, Reduce (BN ArgumentPattern) 2); (63, Reduce (BN ArgumentPattern) 2)]
  [];
mkstate [(21, Shift 163); (37, Shift 63); (50, Shift 73); (51, Shift 60); (53, Shift 74); (55, Shift 79); (57, Shift 65)]
  [(100, 62); (101, 71); (104, 165); (128, 293); (152, 72); (154, 164); (156, 64)];
mkstate [(63, Reduce (BS NextMessageEntry) 0)]
  [];
mkstate [(37, Shift 63); (51, Shift 60); (55, Shift 79); (56, Shift 80); (57, Shift 65)]
  [(100, 62); (101, 78); (105, 174); (131, 294); (154, 76); (155, 77); (156, 64)];
mkstate [(63, Reduce (BS MessageEntry) 0)]
  [];
mkstate [(3, Shift 295)]
  [];
mkstate [(63, Reduce (BS AtomicExpression) 0)]
  [];
mkstate [(63, Reduce (BN AtomicExpression) 0)]
  [];
mkstate [(4, Shift 243); (52, Shift 231)]
  [(153, 288)];
mkstate [(2, Reduce (BN ValueLiteral) 1); (11, Reduce (BN ValueLiteral) 1); (63, Reduce (BN ValueLiteral) 1)]
  [];
mkstate [(63, Reduce (BS ValueLiteral) 0)]
  [];
mkstate [(52, Shift 231)]
  [(153, 288)];
mkstate [(63, Reduce (BS Statement) 0)]
  [];
mkstate [(2, Reduce (BN ComponentId) 1); (5, Reduce (BN ComponentId) 1); (6, Shift 206); (15, Shift 298); (17, Shift 296); (18, Shift 297); (30, Reduce (BN ComponentId) 1); (37, Reduce (BN ComponentId) 1); (51, Reduce (BN ComponentId) 1); (55, Reduce (BN ComponentId) 1); (56, Reduce (BN ComponentId) 1); (57, Reduce (BN ComponentId) 1); (63, Reduce (BN ComponentId) 1)]
  [(141, 300); (341, 299)];
mkstate [(2, Reduce (BN Statement) 1); (5, Reduce (BN Statement) 1); (30, Reduce (BN Statement) 1); (63, Reduce (BN Statement) 1)]
  [];
mkstate [(55, Shift 79)]
  [(154, 301)];
mkstate [(2, Reduce (BN Statement) 10); (5, Reduce (BN Statement) 10); (30, Reduce (BN Statement) 10); (63, Reduce (BN Statement) 10)]
  [];
mkstate [(37, Shift 63); (51, Shift 60); (55, Shift 79); (56, Shift 80); (57, Shift 65)]
  [(100, 62); (101, 78); (105, 302); (154, 76); (155, 77); (156, 64)];
mkstate [(37, Shift 63); (51, Shift 60); (55, Shift 79); (56, Shift 80); (57, Shift 65)]
  [(100, 62); (101, 78); (105, 303); (154, 76); (155, 77); (156, 64)];
mkstate [(2, Reduce (BN Statement) 13); (5, Reduce (BN Statement) 13); (30, Reduce (BN Statement) 13); (37, Shift 63); (51, Shift 60); (55, Shift 79); (56, Shift 80); (57, Shift 65); (63, Reduce (BN Statement) 13)]
  [(100, 62); (101, 78); (105, 304); (154, 76); (155, 77); (156, 64)];
mkstate [(37, Shift 63); (51, Shift 60); (55, Shift 79); (56, Shift 80); (57, Shift 65)]
  [(100, 62); (101, 78); (105, 305); (154, 76); (155, 77); (156, 64)];
mkstate [(2, Reduce (BN Statement) 16); (5, Reduce (BN Statement) 16); (30, Reduce (BN Statement) 16); (37, Shift 63); (51, Shift 60); (55, Shift 79); (56, Shift 80); (57, Shift 65); (63, Reduce (BN Statement) 16)]
  [(100, 62); (101, 78); (105, 279); (154, 76); (155, 77); (156, 64); (305, 306)];
mkstate [(37, Shift 63); (51, Shift 60); (55, Shift 79); (56, Shift 80); (57, Shift 65)]
  [(100, 62); (101, 78); (105, 307); (154, 76); (155, 77); (156, 64)];
mkstate [(2, Reduce (BN ComponentId) 0); (5, Reduce (BN ComponentId) 0); (8, Reduce (BN ComponentId) 0); (30, Reduce (BN ComponentId) 0); (37, Reduce (BN ComponentId) 0); (51, Reduce (BN ComponentId) 0); (55, Reduce (BN ComponentId) 0); (56, Reduce (BN ComponentId) 0); (57, Reduce (BN ComponentId) 0); (63, Reduce (BN ComponentId) 0)]
  [];
mkstate [(63, Reduce (BS NextStatement) 0)]
  [];
mkstate [(22, Shift 191); (28, Shift 189); (35, Shift 186); (36, Shift 187); (37, Shift 63); (39, Shift 185); (41, Shift 184); (42, Shift 188); (51, Shift 60); (55, Shift 79); (57, Shift 65)]
  [(100, 62); (101, 192); (134, 308); (138, 190); (140, 183); (154, 182); (156, 64)];
mkstate [(63, Reduce (BS StatementBlock) 0)]
  [];
mkstate [(2, Shift 194); (5, Reduce (BN StatementBlock) 0); (30, Reduce (BN StatementBlock) 0); (63, Reduce (BN StatementBlock) 0)]
  [(135, 310); (335, 309)];
mkstate [(63, Reduce (BS BlockchainFetchArguments) 0)]
  [];
mkstate [(37, Shift 63); (51, Shift 60); (55, Shift 79); (56, Shift 80); (57, Shift 65)]
  [(100, 62); (101, 78); (105, 279); (154, 76); (155, 77); (156, 64); (305, 311)];
mkstate [(63, Reduce (BS ComponentId) 0)]
  [];
mkstate [(2, Reduce (BN ComponentId) 1); (5, Reduce (BN ComponentId) 1); (8, Reduce (BN ComponentId) 1); (30, Reduce (BN ComponentId) 1); (63, Reduce (BN ComponentId) 1)]
  [];
mkstate [(63, Reduce (BS PatternMatchClause) 0)]
  [];
mkstate [(21, Shift 163); (37, Shift 63); (50, Shift 73); (51, Shift 60); (53, Shift 74); (55, Shift 79); (57, Shift 65)]
  [(100, 62); (101, 71); (104, 165); (128, 312); (152, 72); (154, 164); (156, 64)];
mkstate [(63, Reduce (BS RemoteFetchStatement) 0)]
  [];
mkstate [(17, Shift 313)]
  [];
mkstate [(63, Reduce (BS MapAccess) 0)]
  [];
mkstate [(37, Shift 63); (51, Shift 60); (55, Shift 79); (56, Shift 80); (57, Shift 65)]
  [(100, 62); (101, 78); (105, 314); (154, 76); (155, 77); (156, 64)];
mkstate [(63, Reduce (BS ParameterPair) 0)]
  [];
mkstate [(9, Reduce (BN ParameterPair) 0); (12, Reduce (BN ParameterPair) 0); (63, Reduce (BN ParameterPair) 0)]
  [];
mkstate [(63, Reduce (BS NextParameterPair) 0)]
  [];
mkstate [(55, Shift 79)]
  [(121, 208); (142, 315); (154, 133)];
mkstate [(63, Reduce (BS ComponentParameters) 0)]
  [];
mkstate [(9, Shift 316); (12, Shift 210); (55, Shift 79)]
  [(121, 208); (142, 318); (143, 319); (154, 133); (343, 317)];
mkstate [(63, Reduce (BS ComponentDefinition) 0)]
  [];
mkstate [(34, Reduce (BN ComponentDefinition) 0); (48, Reduce (BN ComponentDefinition) 0); (63, Reduce (BN ComponentDefinition) 0)]
  [];
mkstate [(34, Reduce (BN ComponentDefinition) 1); (48, Reduce (BN ComponentDefinition) 1); (63, Reduce (BN ComponentDefinition) 1)]
  [];
mkstate [(37, Shift 63); (51, Shift 60); (55, Shift 79); (57, Shift 65)]
  [(100, 62); (101, 192); (138, 320); (154, 200); (156, 64)];
mkstate [(37, Shift 63); (51, Shift 60); (55, Shift 79); (57, Shift 65)]
  [(100, 62); (101, 192); (138, 321); (154, 200); (156, 64)];
mkstate [(63, Reduce (BS TransitionDefinition) 0)]
  [];
mkstate [(63, Reduce (BS ProcedureDefinition) 0)]
  [];
mkstate [(63, Reduce (BS ComponentBody) 0)]
  [];
mkstate [(34, Reduce (BN ComponentBody) 0); (48, Reduce (BN ComponentBody) 0); (63, Reduce (BN ComponentBody) 0)]
  [];
mkstate [(30, Shift 322)]
  [];
mkstate [(63, Reduce (BS ContractDefinition) 0)]
  [];
mkstate [(37, Shift 63); (51, Shift 60); (57, Shift 65)]
  [(100, 62); (101, 323); (156, 64)];
mkstate [(63, Reduce (BS ContractField) 0)]
  [];
mkstate [(55, Shift 79)]
  [(121, 324); (154, 133)];
mkstate [(63, Reduce (BS WithConstraint) 0)]
  [];
mkstate [(10, Shift 149); (19, Shift 153); (23, Shift 148); (26, Shift 144); (28, Shift 150); (31, Shift 145); (32, Shift 152); (37, Shift 63); (49, Shift 158); (50, Shift 73); (51, Shift 60); (53, Shift 74); (54, Shift 159); (55, Shift 79); (56, Shift 80); (57, Shift 65)]
  [(100, 62); (101, 154); (104, 151); (105, 146); (126, 325); (132, 147); (133, 155); (152, 156); (154, 76); (155, 77); (156, 64); (158, 157)];
mkstate [(63, Reduce (BS HexNumber) 0)]
  [];
mkstate [(63, Reduce (BS SignedInteger) 0)]
  [];
mkstate [(2, Reduce (BN SignedInteger) 0); (5, Reduce (BN SignedInteger) 0); (11, Reduce (BN SignedInteger) 0); (13, Reduce (BN SignedInteger) 0); (24, Reduce (BN SignedInteger) 0); (25, Reduce (BN SignedInteger) 0); (26, Reduce (BN SignedInteger) 0); (27, Reduce (BN SignedInteger) 0); (30, Reduce (BN SignedInteger) 0); (33, Reduce (BN SignedInteger) 0); (34, Reduce (BN SignedInteger) 0); (38, Reduce (BN SignedInteger) 0); (45, Reduce (BN SignedInteger) 0); (48, Reduce (BN SignedInteger) 0); (63, Reduce (BN SignedInteger) 0)]
  [];
mkstate [(63, Reduce (BS RegularId) 0)]
  [];
mkstate [(63, Reduce (BS SpecialId) 0)]
  [];
mkstate [(63, Reduce (BS TypeOrEnumLikeIdentifierId) 0)]
  [];
mkstate [(63, Reduce (BS TemplateTypeId) 0)]
  [];
mkstate [(63, Reduce (BS StringLiteral) 0)]
  [];
mkstate [(37, Shift 63); (51, Shift 60); (57, Shift 65)]
  [(100, 62); (101, 326); (156, 64)];
mkstate [(37, Shift 63); (51, Shift 60); (57, Shift 65)]
  [(100, 62); (101, 67); (102, 327); (156, 64)];
mkstate [(24, Reduce (BN ImportDeclarations) 1); (25, Reduce (BN ImportDeclarations) 1); (33, Reduce (BN ImportDeclarations) 1); (37, Shift 63); (51, Shift 60); (57, Shift 65); (63, Reduce (BN ImportDeclarations) 1)]
  [(100, 62); (101, 67); (102, 328); (156, 64)];
mkstate [(24, Reduce (BP (Nt ImportedName)) 0); (25, Reduce (BP (Nt ImportedName)) 0); (33, Reduce (BP (Nt ImportedName)) 0); (37, Reduce (BP (Nt ImportedName)) 0); (51, Reduce (BP (Nt ImportedName)) 0); (57, Reduce (BP (Nt ImportedName)) 0); (63, Reduce (BP (Nt ImportedName)) 0)]
  [];
mkstate [(37, Shift 63); (51, Shift 60); (57, Shift 65)]
  [(100, 62); (101, 329); (156, 64)];
mkstate [(37, Shift 63); (51, Shift 60); (57, Shift 65)]
  [(100, 62); (101, 330); (156, 64)];
mkstate [(55, Shift 79)]
  [(154, 331)];
mkstate [(2, Reduce (BN BuiltinArguments) 0); (5, Reduce (BN BuiltinArguments) 0); (13, Reduce (BN BuiltinArguments) 0); (26, Reduce (BN BuiltinArguments) 0); (27, Reduce (BN BuiltinArguments) 0); (30, Reduce (BN BuiltinArguments) 0); (33, Reduce (BN BuiltinArguments) 0); (34, Reduce (BN BuiltinArguments) 0); (37, Reduce (BN BuiltinArguments) 0); (38, Reduce (BN BuiltinArguments) 0); (45, Reduce (BN BuiltinArguments) 0); (48, Reduce (BN BuiltinArguments) 0); (51, Reduce (BN BuiltinArguments) 0); (55, Reduce (BN BuiltinArguments) 0); (56, Reduce (BN BuiltinArguments) 0); (57, Reduce (BN BuiltinArguments) 0); (63, Reduce (BN BuiltinArguments) 0)]
  [];
mkstate [(2, Reduce (BN BuiltinArguments) 2); (5, Reduce (BN BuiltinArguments) 2); (13, Reduce (BN BuiltinArguments) 2); (26, Reduce (BN BuiltinArguments) 2); (27, Reduce (BN BuiltinArguments) 2); (30, Reduce (BN BuiltinArguments) 2); (33, Reduce (BN BuiltinArguments) 2); (34, Reduce (BN BuiltinArguments) 2); (37, Reduce (BN BuiltinArguments) 2); (38, Reduce (BN BuiltinArguments) 2); (45, Reduce (BN BuiltinArguments) 2); (48, Reduce (BN BuiltinArguments) 2); (51, Reduce (BN BuiltinArguments) 2); (55, Reduce (BN BuiltinArguments) 2); (56, Reduce (BN BuiltinArguments) 2); (57, Reduce (BN BuiltinArguments) 2); (63, Reduce (BN BuiltinArguments) 2)]
  [];
mkstate [(8, Shift 99); (9, Reduce (BN RemainingTypes) 1); (12, Reduce (BN RemainingTypes) 1); (14, Reduce (BN RemainingTypes) 1); (15, Reduce (BN RemainingTypes) 1); (30, Reduce (BN RemainingTypes) 1); (37, Shift 63); (43, Shift 103); (50, Shift 73); (51, Shift 60); (53, Shift 74); (57, Shift 65); (58, Shift 92); (63, Reduce (BN RemainingTypes) 1)]
  [(100, 62); (101, 91); (104, 100); (110, 332); (111, 102); (152, 72); (156, 64); (157, 101)];
mkstate [(2, Reduce (BP (Nt TypeArgument)) 0); (5, Reduce (BP (Nt TypeArgument)) 0); (8, Reduce (BP (Nt TypeArgument)) 0); (9, Reduce (BP (Nt TypeArgument)) 0); (11, Reduce (BP (Nt TypeArgument)) 0); (12, Reduce (BP (Nt TypeArgument)) 0); (13, Reduce (BP (Nt TypeArgument)) 0); (14, Reduce (BP (Nt TypeArgument)) 0); (15, Reduce (BP (Nt TypeArgument)) 0); (26, Reduce (BP (Nt TypeArgument)) 0); (27, Reduce (BP (Nt TypeArgument)) 0); (30, Reduce (BP (Nt TypeArgument)) 0); (33, Reduce (BP (Nt TypeArgument)) 0); (34, Reduce (BP (Nt TypeArgument)) 0); (37, Reduce (BP (Nt TypeArgument)) 0); (38, Reduce (BP (Nt TypeArgument)) 0); (43, Reduce (BP (Nt TypeArgument)) 0); (45, Reduce (BP (Nt TypeArgument)) 0); (48, Reduce (BP (Nt TypeArgument)) 0); (50, Reduce (BP (Nt TypeArgument)) 0); (51, Reduce (BP (Nt TypeArgument)) 0); (53, Reduce (BP (Nt TypeArgument)) 0); (57, Reduce (BP (Nt TypeArgument)) 0); (58, Reduce (BP (Nt TypeArgument)) 0); (63, Reduce (BP (Nt TypeArgument)) 0)]
  [];
mkstate [(8, Shift 119); (37, Shift 63); (43, Shift 118); (50, Shift 73); (51, Shift 60); (53, Shift 74); (57, Shift 65)]
  [(100, 62); (101, 91); (104, 117); (111, 120); (116, 333); (152, 72); (156, 64)];
mkstate [(9, Shift 334)]
  [];
mkstate [(4, Shift 335)]
  [];
mkstate [(24, Shift 338); (30, Shift 336); (33, Shift 337); (56, Shift 80)]
  [(155, 339)];
mkstate [(8, Shift 87); (22, Shift 89); (37, Shift 63); (43, Shift 86); (50, Shift 73); (51, Shift 60); (53, Shift 74); (57, Shift 65); (58, Shift 92)]
  [(100, 62); (101, 91); (104, 85); (107, 341); (108, 340); (111, 88); (152, 72); (156, 64); (157, 90)];
mkstate [(9, Shift 342)]
  [];
mkstate [(8, Shift 119); (37, Shift 63); (43, Shift 118); (50, Shift 73); (51, Shift 60); (53, Shift 74); (57, Shift 65)]
  [(100, 62); (101, 91); (104, 117); (111, 120); (116, 343); (152, 72); (156, 64)];
mkstate [(12, Shift 110); (30, Reduce (BN AddressTypeFieldList) 1); (63, Reduce (BN AddressTypeFieldList) 1)]
  [(113, 344)];
mkstate [(12, Reduce (BP (Nt NextAddressTypeField)) 0); (30, Reduce (BP (Nt NextAddressTypeField)) 0); (63, Reduce (BP (Nt NextAddressTypeField)) 0)]
  [];
mkstate [(3, Shift 345)]
  [];
mkstate [(12, Reduce (BN NextAddressTypeField) 0); (30, Reduce (BN NextAddressTypeField) 0); (63, Reduce (BN NextAddressTypeField) 0)]
  [];
mkstate [(9, Shift 346)]
  [];
mkstate [(9, Shift 347)]
  [];
mkstate [(8, Shift 119); (37, Shift 63); (43, Shift 118); (50, Shift 73); (51, Shift 60); (53, Shift 74); (57, Shift 65)]
  [(100, 62); (101, 91); (104, 117); (111, 120); (116, 348); (152, 72); (156, 64)];
mkstate [(9, Shift 349)]
  [];
mkstate [(9, Shift 350)]
  [];
mkstate [(8, Shift 119); (37, Shift 63); (43, Shift 118); (50, Shift 73); (51, Shift 60); (53, Shift 74); (57, Shift 65)]
  [(100, 62); (101, 91); (104, 117); (111, 120); (116, 351); (152, 72); (156, 64)];
mkstate [(24, Shift 128); (25, Shift 69); (33, Shift 224)]
  [(103, 354); (119, 353); (149, 352)];
mkstate [(26, Shift 130); (33, Reduce (BN LibraryDefinition) 0); (45, Shift 131); (63, Reduce (BN LibraryDefinition) 0)]
  [(120, 356); (320, 355)];
mkstate [(3, Shift 135); (15, Shift 357)]
  [(122, 358)];
mkstate [(15, Shift 359); (26, Reduce (BN LibrarySingleDefinition) 2); (33, Reduce (BN LibrarySingleDefinition) 2); (45, Reduce (BN LibrarySingleDefinition) 2); (63, Reduce (BN LibrarySingleDefinition) 2)]
  [];
mkstate [(9, Reduce (BN TypedIdentifier) 0); (12, Reduce (BN TypedIdentifier) 0); (15, Reduce (BN TypedIdentifier) 0); (63, Reduce (BN TypedIdentifier) 0)]
  [];
mkstate [(9, Reduce (BN TypeAnnotation) 0); (12, Reduce (BN TypeAnnotation) 0); (15, Reduce (BN TypeAnnotation) 0); (63, Reduce (BN TypeAnnotation) 0)]
  [];
mkstate [(5, Reduce (BN TypeAlternativeClause) 0); (26, Reduce (BN TypeAlternativeClause) 0); (33, Reduce (BN TypeAlternativeClause) 0); (45, Reduce (BN TypeAlternativeClause) 0); (46, Shift 360); (63, Reduce (BN TypeAlternativeClause) 0)]
  [];
mkstate [(8, Shift 122); (9, Reduce (BN TypeMapValueAllowingTypeArguments) 0); (37, Shift 63); (43, Shift 124); (50, Shift 73); (51, Shift 60); (53, Shift 74); (57, Shift 65); (63, Reduce (BN TypeMapValueAllowingTypeArguments) 0)]
  [(100, 62); (101, 71); (104, 123); (117, 361); (152, 72); (156, 64)];
mkstate [(8, Reduce (BP (Nt TypeMapValueArguments)) 0); (9, Reduce (BP (Nt TypeMapValueArguments)) 0); (37, Reduce (BP (Nt TypeMapValueArguments)) 0); (43, Reduce (BP (Nt TypeMapValueArguments)) 0); (50, Reduce (BP (Nt TypeMapValueArguments)) 0); (51, Reduce (BP (Nt TypeMapValueArguments)) 0); (53, Reduce (BP (Nt TypeMapValueArguments)) 0); (57, Reduce (BP (Nt TypeMapValueArguments)) 0); (63, Reduce (BP (Nt TypeMapValueArguments)) 0)]
  [];
mkstate [(2, Reduce (BN ContractTypeArguments) 0); (5, Reduce (BN ContractTypeArguments) 0); (8, Reduce (BN ContractTypeArguments) 0); (13, Reduce (BN ContractTypeArguments) 0); (26, Reduce (BN ContractTypeArguments) 0); (27, Reduce (BN ContractTypeArguments) 0); (30, Reduce (BN ContractTypeArguments) 0); (33, Reduce (BN ContractTypeArguments) 0); (34, Reduce (BN ContractTypeArguments) 0); (37, Reduce (BN ContractTypeArguments) 0); (38, Reduce (BN ContractTypeArguments) 0); (45, Reduce (BN ContractTypeArguments) 0); (48, Reduce (BN ContractTypeArguments) 0); (51, Reduce (BN ContractTypeArguments) 0); (55, Reduce (BN ContractTypeArguments) 0); (56, Reduce (BN ContractTypeArguments) 0); (57, Reduce (BN ContractTypeArguments) 0); (63, Reduce (BN ContractTypeArguments) 0)]
  [];
mkstate [(8, Shift 99); (11, Shift 362); (37, Shift 63); (43, Shift 103); (50, Shift 73); (51, Shift 60); (53, Shift 74); (57, Shift 65); (58, Shift 92)]
  [(100, 62); (101, 91); (104, 100); (110, 332); (111, 102); (152, 72); (156, 64); (157, 101)];
mkstate [(3, Shift 135); (15, Shift 363)]
  [(122, 364)];
mkstate [(55, Shift 79)]
  [(154, 365)];
mkstate [(2, Reduce (BN FullExpression) 3); (5, Reduce (BN FullExpression) 3); (13, Reduce (BN FullExpression) 3); (26, Reduce (BN FullExpression) 3); (27, Reduce (BN FullExpression) 3); (30, Reduce (BN FullExpression) 3); (33, Reduce (BN FullExpression) 3); (34, Reduce (BN FullExpression) 3); (37, Shift 63); (38, Reduce (BN FullExpression) 3); (45, Reduce (BN FullExpression) 3); (48, Reduce (BN FullExpression) 3); (51, Shift 60); (55, Shift 79); (56, Shift 80); (57, Shift 65); (63, Reduce (BN FullExpression) 3)]
  [(100, 62); (101, 78); (105, 366); (154, 76); (155, 77); (156, 64)];
mkstate [(2, Reduce (BP (Nt VariableIdentifier)) 0); (5, Reduce (BP (Nt VariableIdentifier)) 0); (9, Reduce (BP (Nt VariableIdentifier)) 0); (13, Reduce (BP (Nt VariableIdentifier)) 0); (26, Reduce (BP (Nt VariableIdentifier)) 0); (27, Reduce (BP (Nt VariableIdentifier)) 0); (30, Reduce (BP (Nt VariableIdentifier)) 0); (33, Reduce (BP (Nt VariableIdentifier)) 0); (34, Reduce (BP (Nt VariableIdentifier)) 0); (37, Reduce (BP (Nt VariableIdentifier)) 0); (38, Reduce (BP (Nt VariableIdentifier)) 0); (45, Reduce (BP (Nt VariableIdentifier)) 0); (48, Reduce (BP (Nt VariableIdentifier)) 0); (51, Reduce (BP (Nt VariableIdentifier)) 0); (55, Reduce (BP (Nt VariableIdentifier)) 0); (56, Reduce (BP (Nt VariableIdentifier)) 0); (57, Reduce (BP (Nt VariableIdentifier)) 0); (63, Reduce (BP (Nt VariableIdentifier)) 0)]
  [];
mkstate [(8, Shift 83); (10, Shift 142); (37, Shift 63); (51, Shift 60); (55, Shift 79); (56, Shift 80); (57, Shift 65)]
  [(100, 62); (101, 78); (105, 82); (106, 367); (125, 368); (154, 76); (155, 77); (156, 64)];
mkstate [(2, Shift 172); (11, Shift 369)]
  [(130, 371); (330, 370)];
mkstate [(29, Shift 372)]
  [];
mkstate [(2, Reduce (BN FullExpression) 11); (5, Reduce (BN FullExpression) 11); (13, Reduce (BN FullExpression) 11); (26, Reduce (BN FullExpression) 11); (27, Reduce (BN FullExpression) 11); (30, Reduce (BN FullExpression) 11); (33, Reduce (BN FullExpression) 11); (34, Reduce (BN FullExpression) 11); (37, Shift 63); (38, Reduce (BN FullExpression) 11); (45, Reduce (BN FullExpression) 11); (48, Reduce (BN FullExpression) 11); (51, Shift 60); (55, Shift 79); (56, Shift 80); (57, Shift 65); (63, Reduce (BN FullExpression) 11)]
  [(100, 62); (101, 78); (105, 366); (154, 76); (155, 77); (156, 64)];
mkstate [(2, Reduce (BN FullExpression) 12); (5, Reduce (BN FullExpression) 12); (13, Reduce (BN FullExpression) 12); (26, Reduce (BN FullExpression) 12); (27, Reduce (BN FullExpression) 12); (30, Reduce (BN FullExpression) 12); (33, Reduce (BN FullExpression) 12); (34, Reduce (BN FullExpression) 12); (37, Shift 63); (38, Reduce (BN FullExpression) 12); (45, Reduce (BN FullExpression) 12); (48, Reduce (BN FullExpression) 12); (51, Shift 60); (55, Shift 79); (56, Shift 80); (57, Shift 65); (63, Reduce (BN FullExpression) 12)]
  [(100, 62); (101, 78); (105, 279); (154, 76); (155, 77); (156, 64); (305, 373)];
mkstate [(13, Shift 374)]
  [];
mkstate [(8, Shift 99); (37, Shift 63); (43, Shift 103); (50, Shift 73); (51, Shift 60); (53, Shift 74); (57, Shift 65); (58, Shift 92)]
  [(100, 62); (101, 91); (104, 100); (110, 247); (111, 102); (152, 72); (156, 64); (157, 101); (310, 375)];
mkstate [(37, Shift 63); (51, Shift 60); (55, Shift 79); (57, Shift 65)]
  [(100, 62); (101, 329); (154, 331); (156, 64)];
mkstate [(2, Reduce (BN ValueLiteral) 0); (5, Reduce (BN ValueLiteral) 0); (11, Reduce (BN ValueLiteral) 0); (13, Reduce (BN ValueLiteral) 0); (26, Reduce (BN ValueLiteral) 0); (27, Reduce (BN ValueLiteral) 0); (30, Reduce (BN ValueLiteral) 0); (33, Reduce (BN ValueLiteral) 0); (34, Reduce (BN ValueLiteral) 0); (38, Reduce (BN ValueLiteral) 0); (45, Reduce (BN ValueLiteral) 0); (48, Reduce (BN ValueLiteral) 0); (63, Reduce (BN ValueLiteral) 0)]
  [];
mkstate [(8, Shift 119); (37, Shift 63); (43, Shift 118); (50, Shift 73); (51, Shift 60); (53, Shift 74); (57, Shift 65)]
  [(100, 62); (101, 91); (104, 117); (111, 120); (116, 376); (152, 72); (156, 64)];
mkstate [(13, Shift 377)]
  [];
mkstate [(8, Shift 170); (9, Reduce (BN Pattern) 3); (13, Reduce (BN Pattern) 3); (21, Shift 167); (37, Shift 63); (50, Shift 73); (51, Shift 60); (53, Shift 74); (55, Shift 79); (57, Shift 65); (63, Reduce (BN Pattern) 3)]
  [(100, 62); (101, 71); (104, 169); (129, 378); (152, 72); (154, 168); (156, 64)];
mkstate [(8, Reduce (BP (Nt ArgumentPattern)) 0); (9, Reduce (BP (Nt ArgumentPattern)) 0); (13, Reduce (BP (Nt ArgumentPattern)) 0); (21, Reduce (BP (Nt ArgumentPattern)) 0); (37, Reduce (BP (Nt ArgumentPattern)) 0); (50, Reduce (BP (Nt ArgumentPattern)) 0); (51, Reduce (BP (Nt ArgumentPattern)) 0); (53, Reduce (BP (Nt ArgumentPattern)) 0); (55, Reduce (BP (Nt ArgumentPattern)) 0); (57, Reduce (BP (Nt ArgumentPattern)) 0); (63, Reduce (BP (Nt ArgumentPattern)) 0)]
  [];
mkstate [(9, Shift 379)]
  [];
mkstate [(2, Reduce (BN NextMessageEntry) 0); (11, Reduce (BN NextMessageEntry) 0); (63, Reduce (BN NextMessageEntry) 0)]
  [];
mkstate [(37, Shift 63); (49, Shift 158); (51, Shift 60); (53, Shift 74); (54, Shift 159); (55, Shift 79); (56, Shift 80); (57, Shift 65)]
  [(100, 62); (101, 177); (105, 381); (133, 380); (152, 178); (154, 76); (155, 77); (156, 64); (158, 157)];
mkstate [(16, Shift 383); (37, Shift 63); (40, Shift 385); (51, Shift 60); (55, Shift 79); (56, Shift 80); (57, Shift 65)]
  [(100, 62); (101, 78); (105, 382); (154, 384); (155, 77); (156, 64)];
mkstate [(37, Shift 63); (51, Shift 60); (55, Shift 79); (56, Shift 80); (57, Shift 65)]
  [(100, 62); (101, 78); (105, 386); (154, 76); (155, 77); (156, 64)];
mkstate [(10, Shift 149); (19, Shift 153); (23, Shift 148); (26, Shift 144); (28, Shift 150); (31, Shift 145); (32, Shift 152); (37, Shift 63); (49, Shift 158); (50, Shift 73); (51, Shift 60); (53, Shift 74); (54, Shift 159); (55, Shift 79); (56, Shift 80); (57, Shift 65)]
  [(100, 62); (101, 154); (104, 151); (105, 146); (126, 387); (132, 147); (133, 155); (152, 156); (154, 76); (155, 77); (156, 64); (158, 157)];
mkstate [(6, Shift 206); (18, Shift 388)]
  [(141, 389)];
mkstate [(2, Reduce (BP (Nt MapAccess)) 0); (5, Reduce (BP (Nt MapAccess)) 0); (6, Reduce (BP (Nt MapAccess)) 0); (18, Reduce (BP (Nt MapAccess)) 0); (30, Reduce (BP (Nt MapAccess)) 0); (63, Reduce (BP (Nt MapAccess)) 0)]
  [];
mkstate [(6, Shift 206)]
  [(141, 300); (341, 390)];
mkstate [(2, Reduce (BN Statement) 11); (5, Reduce (BN Statement) 11); (30, Reduce (BN Statement) 11); (63, Reduce (BN Statement) 11)]
  [];
mkstate [(2, Reduce (BN Statement) 12); (5, Reduce (BN Statement) 12); (30, Reduce (BN Statement) 12); (63, Reduce (BN Statement) 12)]
  [];
mkstate [(2, Reduce (BN Statement) 14); (5, Reduce (BN Statement) 14); (30, Reduce (BN Statement) 14); (63, Reduce (BN Statement) 14)]
  [];
mkstate [(29, Shift 391)]
  [];
mkstate [(2, Reduce (BN Statement) 17); (5, Reduce (BN Statement) 17); (30, Reduce (BN Statement) 17); (37, Shift 63); (51, Shift 60); (55, Shift 79); (56, Shift 80); (57, Shift 65); (63, Reduce (BN Statement) 17)]
  [(100, 62); (101, 78); (105, 366); (154, 76); (155, 77); (156, 64)];
mkstate [(37, Shift 63); (51, Shift 60); (55, Shift 79); (57, Shift 65)]
  [(100, 62); (101, 192); (138, 392); (154, 200); (156, 64)];
mkstate [(2, Reduce (BN NextStatement) 0); (5, Reduce (BN NextStatement) 0); (30, Reduce (BN NextStatement) 0); (63, Reduce (BN NextStatement) 0)]
  [];
mkstate [(2, Shift 194); (5, Reduce (BN StatementBlock) 1); (30, Reduce (BN StatementBlock) 1); (63, Reduce (BN StatementBlock) 1)]
  [(135, 393)];
mkstate [(2, Reduce (BP (Nt NextStatement)) 0); (5, Reduce (BP (Nt NextStatement)) 0); (30, Reduce (BP (Nt NextStatement)) 0); (63, Reduce (BP (Nt NextStatement)) 0)]
  [];
mkstate [(9, Shift 394); (37, Shift 63); (51, Shift 60); (55, Shift 79); (56, Shift 80); (57, Shift 65)]
  [(100, 62); (101, 78); (105, 366); (154, 76); (155, 77); (156, 64)];
mkstate [(13, Shift 395)]
  [];
mkstate [(16, Shift 396)]
  [];
mkstate [(7, Shift 397)]
  [];
mkstate [(9, Reduce (BN NextParameterPair) 0); (12, Reduce (BN NextParameterPair) 0); (63, Reduce (BN NextParameterPair) 0)]
  [];
mkstate [(22, Reduce (BN ComponentParameters) 0); (28, Reduce (BN ComponentParameters) 0); (29, Reduce (BN ComponentParameters) 0); (30, Reduce (BN ComponentParameters) 0); (34, Reduce (BN ComponentParameters) 0); (35, Reduce (BN ComponentParameters) 0); (36, Reduce (BN ComponentParameters) 0); (37, Reduce (BN ComponentParameters) 0); (38, Reduce (BN ComponentParameters) 0); (39, Reduce (BN ComponentParameters) 0); (41, Reduce (BN ComponentParameters) 0); (42, Reduce (BN ComponentParameters) 0); (48, Reduce (BN ComponentParameters) 0); (51, Reduce (BN ComponentParameters) 0); (55, Reduce (BN ComponentParameters) 0); (57, Reduce (BN ComponentParameters) 0); (63, Reduce (BN ComponentParameters) 0)]
  [];
mkstate [(9, Shift 398); (12, Shift 210)]
  [(143, 399)];
mkstate [(9, Shift 400); (12, Shift 210)]
  [(143, 319); (343, 401)];
mkstate [(9, Reduce (BP (Nt NextParameterPair)) 0); (12, Reduce (BP (Nt NextParameterPair)) 0)]
  [];
mkstate [(8, Shift 212)]
  [(144, 402)];
mkstate [(8, Shift 212)]
  [(144, 403)];
mkstate [(34, Reduce (BN ComponentBody) 1); (48, Reduce (BN ComponentBody) 1); (63, Reduce (BN ComponentBody) 1)]
  [];
mkstate [(8, Shift 212)]
  [(144, 404)];
mkstate [(15, Shift 405)]
  [];
mkstate [(13, Shift 406)]
  [];
mkstate [(24, Reduce (BN ImportedName) 1); (25, Reduce (BN ImportedName) 1); (33, Reduce (BN ImportedName) 1); (37, Reduce (BN ImportedName) 1); (51, Reduce (BN ImportedName) 1); (57, Reduce (BN ImportedName) 1); (63, Reduce (BN ImportedName) 1)]
  [];
mkstate [(24, Reduce (BN ImportDeclarations) 0); (25, Reduce (BN ImportDeclarations) 0); (33, Reduce (BN ImportDeclarations) 0); (63, Reduce (BN ImportDeclarations) 0)]
  [];
mkstate [(24, Reduce (BP (Nt ImportedName)) 1); (25, Reduce (BP (Nt ImportedName)) 1); (33, Reduce (BP (Nt ImportedName)) 1); (37, Reduce (BP (Nt ImportedName)) 1); (51, Reduce (BP (Nt ImportedName)) 1); (57, Reduce (BP (Nt ImportedName)) 1); (63, Reduce (BP (Nt ImportedName)) 1)]
  [];
mkstate [(2, Reduce (BN MetaIdentifier) 1); (5, Reduce (BN MetaIdentifier) 1); (8, Reduce (BN MetaIdentifier) 1); (9, Reduce (BN MetaIdentifier) 1); (10, Reduce (BN MetaIdentifier) 1); (11, Reduce (BN MetaIdentifier) 1); (12, Reduce (BN MetaIdentifier) 1); (13, Reduce (BN MetaIdentifier) 1); (14, Reduce (BN MetaIdentifier) 1); (15, Reduce (BN MetaIdentifier) 1); (21, Reduce (BN MetaIdentifier) 1); (26, Reduce (BN MetaIdentifier) 1); (27, Reduce (BN MetaIdentifier) 1); (30, Reduce (BN MetaIdentifier) 1); (33, Reduce (BN MetaIdentifier) 1); (34, Reduce (BN MetaIdentifier) 1); (37, Reduce (BN MetaIdentifier) 1); (38, Reduce (BN MetaIdentifier) 1); (43, Reduce (BN MetaIdentifier) 1); (45, Reduce (BN MetaIdentifier) 1); (48, Reduce (BN MetaIdentifier) 1); (50, Reduce (BN MetaIdentifier) 1); (51, Reduce (BN MetaIdentifier) 1); (53, Reduce (BN MetaIdentifier) 1); (55, Reduce (BN MetaIdentifier) 1); (56, Reduce (BN MetaIdentifier) 1); (57, Reduce (BN MetaIdentifier) 1); (58, Reduce (BN MetaIdentifier) 1); (63, Reduce (BN MetaIdentifier) 1)]
  [];
mkstate [(2, Reduce (BN MetaIdentifier) 2); (5, Reduce (BN MetaIdentifier) 2); (8, Reduce (BN MetaIdentifier) 2); (9, Reduce (BN MetaIdentifier) 2); (10, Reduce (BN MetaIdentifier) 2); (11, Reduce (BN MetaIdentifier) 2); (12, Reduce (BN MetaIdentifier) 2); (13, Reduce (BN MetaIdentifier) 2); (14, Reduce (BN MetaIdentifier) 2); (15, Reduce (BN MetaIdentifier) 2); (21, Reduce (BN MetaIdentifier) 2); (26, Reduce (BN MetaIdentifier) 2); (27, Reduce (BN MetaIdentifier) 2); (30, Reduce (BN MetaIdentifier) 2); (33, Reduce (BN MetaIdentifier) 2); (34, Reduce (BN MetaIdentifier) 2); (37, Reduce (BN MetaIdentifier) 2); (38, Reduce (BN MetaIdentifier) 2); (43, Reduce (BN MetaIdentifier) 2); (45, Reduce (BN MetaIdentifier) 2); (48, Reduce (BN MetaIdentifier) 2); (50, Reduce (BN MetaIdentifier) 2); (51, Reduce (BN MetaIdentifier) 2); (53, Reduce (BN MetaIdentifier) 2); (55, Reduce (BN MetaIdentifier) 2); (56, Reduce (BN MetaIdentifier) 2); (57, Reduce (BN MetaIdentifier) 2); (58, Reduce (BN MetaIdentifier) 2); (63, Reduce (BN MetaIdentifier) 2)]
  [];
mkstate [(2, Reduce (BN VariableIdentifier) 2); (3, Reduce (BN VariableIdentifier) 2); (5, Reduce (BN VariableIdentifier) 2); (7, Reduce (BN VariableIdentifier) 2); (8, Reduce (BN VariableIdentifier) 2); (9, Reduce (BN VariableIdentifier) 2); (11, Reduce (BN VariableIdentifier) 2); (13, Reduce (BN VariableIdentifier) 2); (26, Reduce (BN VariableIdentifier) 2); (27, Reduce (BN VariableIdentifier) 2); (29, Reduce (BN VariableIdentifier) 2); (30, Reduce (BN VariableIdentifier) 2); (33, Reduce (BN VariableIdentifier) 2); (34, Reduce (BN VariableIdentifier) 2); (37, Reduce (BN VariableIdentifier) 2); (38, Reduce (BN VariableIdentifier) 2); (43, Reduce (BN VariableIdentifier) 2); (45, Reduce (BN VariableIdentifier) 2); (47, Reduce (BN VariableIdentifier) 2); (48, Reduce (BN VariableIdentifier) 2); (50, Reduce (BN VariableIdentifier) 2); (51, Reduce (BN VariableIdentifier) 2); (53, Reduce (BN VariableIdentifier) 2); (55, Reduce (BN VariableIdentifier) 2); (56, Reduce (BN VariableIdentifier) 2); (57, Reduce (BN VariableIdentifier) 2); (58, Reduce (BN VariableIdentifier) 2); (63, Reduce (BN VariableIdentifier) 2)]
  [];
mkstate [(2, Reduce (BP (Nt TypeArgument)) 1); (5, Reduce (BP (Nt TypeArgument)) 1); (8, Reduce (BP (Nt TypeArgument)) 1); (9, Reduce (BP (Nt TypeArgument)) 1); (11, Reduce (BP (Nt TypeArgument)) 1); (12, Reduce (BP (Nt TypeArgument)) 1); (13, Reduce (BP (Nt TypeArgument)) 1); (14, Reduce (BP (Nt TypeArgument)) 1); (15, Reduce (BP (Nt TypeArgument)) 1); (26, Reduce (BP (Nt TypeArgument)) 1); (27, Reduce (BP (Nt TypeArgument)) 1); (30, Reduce (BP (Nt TypeArgument)) 1); (33, Reduce (BP (Nt TypeArgument)) 1); (34, Reduce (BP (Nt TypeArgument)) 1); (37, Reduce (BP (Nt TypeArgument)) 1); (38, Reduce (BP (Nt TypeArgument)) 1); (43, Reduce (BP (Nt TypeArgument)) 1); (45, Reduce (BP (Nt TypeArgument)) 1); (48, Reduce (BP (Nt TypeArgument)) 1); (50, Reduce (BP (Nt TypeArgument)) 1); (51, Reduce (BP (Nt TypeArgument)) 1); (53, Reduce (BP (Nt TypeArgument)) 1); (57, Reduce (BP (Nt TypeArgument)) 1); (58, Reduce (BP (Nt TypeArgument)) 1); (63, Reduce (BP (Nt TypeArgument)) 1)]
  [];
mkstate [(9, Reduce (BN RemainingTypes) 2); (12, Reduce (BN RemainingTypes) 2); (14, Reduce (BN RemainingTypes) 2); (15, Reduce (BN RemainingTypes) 2); (30, Reduce (BN RemainingTypes) 2); (63, Reduce (BN RemainingTypes) 2)]
  [];
mkstate [(9, Reduce (BN RemainingTypes) 3); (12, Reduce (BN RemainingTypes) 3); (14, Reduce (BN RemainingTypes) 3); (15, Reduce (BN RemainingTypes) 3); (30, Reduce (BN RemainingTypes) 3); (63, Reduce (BN RemainingTypes) 3)]
  [];
mkstate [(8, Shift 87); (22, Shift 89); (37, Shift 63); (43, Shift 86); (50, Shift 73); (51, Shift 60); (53, Shift 74); (57, Shift 65); (58, Shift 92)]
  [(100, 62); (101, 91); (104, 85); (107, 407); (111, 88); (152, 72); (156, 64); (157, 90)];
mkstate [(2, Reduce (BN AddressType) 0); (5, Reduce (BN AddressType) 0); (8, Reduce (BN AddressType) 0); (9, Reduce (BN AddressType) 0); (11, Reduce (BN AddressType) 0); (12, Reduce (BN AddressType) 0); (13, Reduce (BN AddressType) 0); (14, Reduce (BN AddressType) 0); (15, Reduce (BN AddressType) 0); (26, Reduce (BN AddressType) 0); (27, Reduce (BN AddressType) 0); (30, Reduce (BN AddressType) 0); (33, Reduce (BN AddressType) 0); (34, Reduce (BN AddressType) 0); (37, Reduce (BN AddressType) 0); (38, Reduce (BN AddressType) 0); (43, Reduce (BN AddressType) 0); (45, Reduce (BN AddressType) 0); (48, Reduce (BN AddressType) 0); (50, Reduce (BN AddressType) 0); (51, Reduce (BN AddressType) 0); (53, Reduce (BN AddressType) 0); (57, Reduce (BN AddressType) 0); (58, Reduce (BN AddressType) 0); (63, Reduce (BN AddressType) 0)]
  [];
mkstate [(30, Shift 408); (38, Shift 108)]
  [(112, 409); (114, 107)];
mkstate [(30, Shift 410)]
  [];
mkstate [(30, Shift 411)]
  [];
mkstate [(9, Reduce (BN FunctionSignature) 0); (12, Reduce (BN FunctionSignature) 0); (15, Reduce (BN FunctionSignature) 0); (30, Reduce (BN FunctionSignature) 0); (63, Reduce (BN FunctionSignature) 0)]
  [];
mkstate [(9, Reduce (BN FunctionSignature) 1); (12, Reduce (BN FunctionSignature) 1); (14, Shift 252); (15, Reduce (BN FunctionSignature) 1); (30, Reduce (BN FunctionSignature) 1); (63, Reduce (BN FunctionSignature) 1)]
  [];
mkstate [(2, Reduce (BN TypeArgument) 0); (5, Reduce (BN TypeArgument) 0); (8, Reduce (BN TypeArgument) 0); (9, Reduce (BN TypeArgument) 0); (11, Reduce (BN TypeArgument) 0); (12, Reduce (BN TypeArgument) 0); (13, Reduce (BN TypeArgument) 0); (14, Reduce (BN TypeArgument) 0); (15, Reduce (BN TypeArgument) 0); (26, Reduce (BN TypeArgument) 0); (27, Reduce (BN TypeArgument) 0); (30, Reduce (BN TypeArgument) 0); (33, Reduce (BN TypeArgument) 0); (34, Reduce (BN TypeArgument) 0); (37, Reduce (BN TypeArgument) 0); (38, Reduce (BN TypeArgument) 0); (43, Reduce (BN TypeArgument) 0); (45, Reduce (BN TypeArgument) 0); (48, Reduce (BN TypeArgument) 0); (50, Reduce (BN TypeArgument) 0); (51, Reduce (BN TypeArgument) 0); (53, Reduce (BN TypeArgument) 0); (57, Reduce (BN TypeArgument) 0); (58, Reduce (BN TypeArgument) 0); (63, Reduce (BN TypeArgument) 0)]
  [];
mkstate [(2, Reduce (BN TypeArgument) 4); (5, Reduce (BN TypeArgument) 4); (8, Reduce (BN TypeArgument) 4); (9, Reduce (BN TypeArgument) 4); (11, Reduce (BN TypeArgument) 4); (12, Reduce (BN TypeArgument) 4); (13, Reduce (BN TypeArgument) 4); (14, Reduce (BN TypeArgument) 4); (15, Reduce (BN TypeArgument) 4); (26, Reduce (BN TypeArgument) 4); (27, Reduce (BN TypeArgument) 4); (30, Reduce (BN TypeArgument) 4); (33, Reduce (BN TypeArgument) 4); (34, Reduce (BN TypeArgument) 4); (37, Reduce (BN TypeArgument) 4); (38, Reduce (BN TypeArgument) 4); (43, Reduce (BN TypeArgument) 4); (45, Reduce (BN TypeArgument) 4); (48, Reduce (BN TypeArgument) 4); (50, Reduce (BN TypeArgument) 4); (51, Reduce (BN TypeArgument) 4); (53, Reduce (BN TypeArgument) 4); (57, Reduce (BN TypeArgument) 4); (58, Reduce (BN TypeArgument) 4); (63, Reduce (BN TypeArgument) 4)]
  [];
mkstate [(12, Reduce (BP (Nt NextAddressTypeField)) 1); (30, Reduce (BP (Nt NextAddressTypeField)) 1); (63, Reduce (BP (Nt NextAddressTypeField)) 1)]
  [];
mkstate [(8, Shift 87); (22, Shift 89); (37, Shift 63); (43, Shift 86); (50, Shift 73); (51, Shift 60); (53, Shift 74); (57, Shift 65); (58, Shift 92)]
  [(100, 62); (101, 91); (104, 85); (107, 97); (108, 96); (109, 412); (111, 88); (152, 72); (156, 64); (157, 90)];
mkstate [(8, Reduce (BN TypeMapKey) 1); (37, Reduce (BN TypeMapKey) 1); (43, Reduce (BN TypeMapKey) 1); (50, Reduce (BN TypeMapKey) 1); (51, Reduce (BN TypeMapKey) 1); (53, Reduce (BN TypeMapKey) 1); (57, Reduce (BN TypeMapKey) 1); (63, Reduce (BN TypeMapKey) 1)]
  [];
mkstate [(8, Reduce (BN TypeMapKey) 2); (37, Reduce (BN TypeMapKey) 2); (43, Reduce (BN TypeMapKey) 2); (50, Reduce (BN TypeMapKey) 2); (51, Reduce (BN TypeMapKey) 2); (53, Reduce (BN TypeMapKey) 2); (57, Reduce (BN TypeMapKey) 2); (63, Reduce (BN TypeMapKey) 2)]
  [];
mkstate [(2, Reduce (BN TypeMapValue) 1); (5, Reduce (BN TypeMapValue) 1); (8, Reduce (BN TypeMapValue) 1); (9, Reduce (BN TypeMapValue) 1); (11, Reduce (BN TypeMapValue) 1); (12, Reduce (BN TypeMapValue) 1); (13, Reduce (BN TypeMapValue) 1); (14, Reduce (BN TypeMapValue) 1); (15, Reduce (BN TypeMapValue) 1); (26, Reduce (BN TypeMapValue) 1); (27, Reduce (BN TypeMapValue) 1); (30, Reduce (BN TypeMapValue) 1); (33, Reduce (BN TypeMapValue) 1); (34, Reduce (BN TypeMapValue) 1); (37, Reduce (BN TypeMapValue) 1); (38, Reduce (BN TypeMapValue) 1); (43, Reduce (BN TypeMapValue) 1); (45, Reduce (BN TypeMapValue) 1); (48, Reduce (BN TypeMapValue) 1); (50, Reduce (BN TypeMapValue) 1); (51, Reduce (BN TypeMapValue) 1); (53, Reduce (BN TypeMapValue) 1); (57, Reduce (BN TypeMapValue) 1); (58, Reduce (BN TypeMapValue) 1); (63, Reduce (BN TypeMapValue) 1)]
  [];
mkstate [(2, Reduce (BN TypeMapValue) 2); (5, Reduce (BN TypeMapValue) 2); (8, Reduce (BN TypeMapValue) 2); (9, Reduce (BN TypeMapValue) 2); (11, Reduce (BN TypeMapValue) 2); (12, Reduce (BN TypeMapValue) 2); (13, Reduce (BN TypeMapValue) 2); (14, Reduce (BN TypeMapValue) 2); (15, Reduce (BN TypeMapValue) 2); (26, Reduce (BN TypeMapValue) 2); (27, Reduce (BN TypeMapValue) 2); (30, Reduce (BN TypeMapValue) 2); (33, Reduce (BN TypeMapValue) 2); (34, Reduce (BN TypeMapValue) 2); (37, Reduce (BN TypeMapValue) 2); (38, Reduce (BN TypeMapValue) 2); (43, Reduce (BN TypeMapValue) 2); (45, Reduce (BN TypeMapValue) 2); (48, Reduce (BN TypeMapValue) 2); (50, Reduce (BN TypeMapValue) 2); (51, Reduce (BN TypeMapValue) 2); (53, Reduce (BN TypeMapValue) 2); (57, Reduce (BN TypeMapValue) 2); (58, Reduce (BN TypeMapValue) 2); (63, Reduce (BN TypeMapValue) 2)]
  [];
mkstate [(8, Reduce (BN TypeMapValueArguments) 0); (9, Reduce (BN TypeMapValueArguments) 0); (37, Reduce (BN TypeMapValueArguments) 0); (43, Reduce (BN TypeMapValueArguments) 0); (50, Reduce (BN TypeMapValueArguments) 0); (51, Reduce (BN TypeMapValueArguments) 0); (53, Reduce (BN TypeMapValueArguments) 0); (57, Reduce (BN TypeMapValueArguments) 0); (63, Reduce (BN TypeMapValueArguments) 0)]
  [];
mkstate [(8, Reduce (BN TypeMapValueArguments) 2); (9, Reduce (BN TypeMapValueArguments) 2); (37, Reduce (BN TypeMapValueArguments) 2); (43, Reduce (BN TypeMapValueArguments) 2); (50, Reduce (BN TypeMapValueArguments) 2); (51, Reduce (BN TypeMapValueArguments) 2); (53, Reduce (BN TypeMapValueArguments) 2); (57, Reduce (BN TypeMapValueArguments) 2); (63, Reduce (BN TypeMapValueArguments) 2)]
  [];
mkstate [(63, Reduce (BN Program) 0)]
  [];
mkstate [(33, Shift 224)]
  [(149, 413)];
mkstate [(24, Shift 128); (25, Shift 238); (33, Shift 224)]
  [(119, 415); (149, 414)];
mkstate [(26, Shift 130); (33, Reduce (BN LibraryDefinition) 1); (45, Shift 131); (63, Reduce (BN LibraryDefinition) 1)]
  [(120, 416)];
mkstate [(26, Reduce (BP (Nt LibrarySingleDefinition)) 0); (33, Reduce (BP (Nt LibrarySingleDefinition)) 0); (45, Reduce (BP (Nt LibrarySingleDefinition)) 0); (63, Reduce (BP (Nt LibrarySingleDefinition)) 0)]
  [];
mkstate [(10, Shift 149); (19, Shift 153); (23, Shift 148); (26, Shift 144); (28, Shift 150); (31, Shift 145); (32, Shift 152); (37, Shift 63); (49, Shift 158); (50, Shift 73); (51, Shift 60); (53, Shift 74); (54, Shift 159); (55, Shift 79); (56, Shift 80); (57, Shift 65)]
  [(100, 62); (101, 154); (104, 151); (105, 146); (126, 417); (132, 147); (133, 155); (152, 156); (154, 76); (155, 77); (156, 64); (158, 157)];
mkstate [(15, Shift 418)]
  [];
mkstate [(5, Shift 137)]
  [(123, 420); (323, 419)];
mkstate [(8, Shift 99); (37, Shift 63); (43, Shift 103); (50, Shift 73); (51, Shift 60); (53, Shift 74); (57, Shift 65); (58, Shift 92)]
  [(100, 62); (101, 91); (104, 100); (110, 247); (111, 102); (152, 72); (156, 64); (157, 101); (310, 421)];
mkstate [(8, Reduce (BP (Nt TypeMapValueArguments)) 1); (9, Reduce (BP (Nt TypeMapValueArguments)) 1); (37, Reduce (BP (Nt TypeMapValueArguments)) 1); (43, Reduce (BP (Nt TypeMapValueArguments)) 1); (50, Reduce (BP (Nt TypeMapValueArguments)) 1); (51, Reduce (BP (Nt TypeMapValueArguments)) 1); (53, Reduce (BP (Nt TypeMapValueArguments)) 1); (57, Reduce (BP (Nt TypeMapValueArguments)) 1); (63, Reduce (BP (Nt TypeMapValueArguments)) 1)]
  [];
mkstate [(2, Reduce (BN ContractTypeArguments) 1); (5, Reduce (BN ContractTypeArguments) 1); (8, Reduce (BN ContractTypeArguments) 1); (13, Reduce (BN ContractTypeArguments) 1); (26, Reduce (BN ContractTypeArguments) 1); (27, Reduce (BN ContractTypeArguments) 1); (30, Reduce (BN ContractTypeArguments) 1); (33, Reduce (BN ContractTypeArguments) 1); (34, Reduce (BN ContractTypeArguments) 1); (37, Reduce (BN ContractTypeArguments) 1); (38, Reduce (BN ContractTypeArguments) 1); (45, Reduce (BN ContractTypeArguments) 1); (48, Reduce (BN ContractTypeArguments) 1); (51, Reduce (BN ContractTypeArguments) 1); (55, Reduce (BN ContractTypeArguments) 1); (56, Reduce (BN ContractTypeArguments) 1); (57, Reduce (BN ContractTypeArguments) 1); (63, Reduce (BN ContractTypeArguments) 1)]
  [];
mkstate [(10, Shift 149); (19, Shift 153); (23, Shift 148); (26, Shift 144); (28, Shift 150); (31, Shift 145); (32, Shift 152); (37, Shift 63); (49, Shift 158); (50, Shift 73); (51, Shift 60); (53, Shift 74); (54, Shift 159); (55, Shift 79); (56, Shift 80); (57, Shift 65)]
  [(100, 62); (101, 154); (104, 151); (105, 146); (126, 422); (132, 147); (133, 155); (152, 156); (154, 76); (155, 77); (156, 64); (158, 157)];
mkstate [(15, Shift 423)]
  [];
mkstate [(3, Shift 135)]
  [(122, 424)];
mkstate [(2, Reduce (BP (Nt VariableIdentifier)) 1); (5, Reduce (BP (Nt VariableIdentifier)) 1); (9, Reduce (BP (Nt VariableIdentifier)) 1); (13, Reduce (BP (Nt VariableIdentifier)) 1); (26, Reduce (BP (Nt VariableIdentifier)) 1); (27, Reduce (BP (Nt VariableIdentifier)) 1); (30, Reduce (BP (Nt VariableIdentifier)) 1); (33, Reduce (BP (Nt VariableIdentifier)) 1); (34, Reduce (BP (Nt VariableIdentifier)) 1); (37, Reduce (BP (Nt VariableIdentifier)) 1); (38, Reduce (BP (Nt VariableIdentifier)) 1); (45, Reduce (BP (Nt VariableIdentifier)) 1); (48, Reduce (BP (Nt VariableIdentifier)) 1); (51, Reduce (BP (Nt VariableIdentifier)) 1); (55, Reduce (BP (Nt VariableIdentifier)) 1); (56, Reduce (BP (Nt VariableIdentifier)) 1); (57, Reduce (BP (Nt VariableIdentifier)) 1); (63, Reduce (BP (Nt VariableIdentifier)) 1)]
  [];
mkstate [(2, Reduce (BN FullExpression) 5); (5, Reduce (BN FullExpression) 5); (13, Reduce (BN FullExpression) 5); (26, Reduce (BN FullExpression) 5); (27, Reduce (BN FullExpression) 5); (30, Reduce (BN FullExpression) 5); (33, Reduce (BN FullExpression) 5); (34, Reduce (BN FullExpression) 5); (37, Shift 63); (38, Reduce (BN FullExpression) 5); (45, Reduce (BN FullExpression) 5); (48, Reduce (BN FullExpression) 5); (51, Shift 60); (55, Shift 79); (56, Shift 80); (57, Shift 65); (63, Reduce (BN FullExpression) 5)]
  [(100, 62); (101, 78); (105, 244); (154, 76); (155, 77); (156, 64)];
mkstate [(8, Shift 83); (37, Shift 63); (51, Shift 60); (55, Shift 79); (56, Shift 80); (57, Shift 65)]
  [(100, 62); (101, 78); (105, 82); (106, 425); (154, 76); (155, 77); (156, 64)];
mkstate [(2, Reduce (BN FullExpression) 7); (5, Reduce (BN FullExpression) 7); (13, Reduce (BN FullExpression) 7); (26, Reduce (BN FullExpression) 7); (27, Reduce (BN FullExpression) 7); (30, Reduce (BN FullExpression) 7); (33, Reduce (BN FullExpression) 7); (34, Reduce (BN FullExpression) 7); (38, Reduce (BN FullExpression) 7); (45, Reduce (BN FullExpression) 7); (48, Reduce (BN FullExpression) 7); (63, Reduce (BN FullExpression) 7)]
  [];
mkstate [(2, Shift 172); (11, Shift 426)]
  [(130, 427)];
mkstate [(2, Reduce (BP (Nt NextMessageEntry)) 0); (11, Reduce (BP (Nt NextMessageEntry)) 0)]
  [];
mkstate [(5, Shift 161)]
  [(127, 429); (327, 428)];
mkstate [(2, Reduce (BN FullExpression) 13); (5, Reduce (BN FullExpression) 13); (13, Reduce (BN FullExpression) 13); (26, Reduce (BN FullExpression) 13); (27, Reduce (BN FullExpression) 13); (30, Reduce (BN FullExpression) 13); (33, Reduce (BN FullExpression) 13); (34, Reduce (BN FullExpression) 13); (37, Shift 63); (38, Reduce (BN FullExpression) 13); (45, Reduce (BN FullExpression) 13); (48, Reduce (BN FullExpression) 13); (51, Shift 60); (55, Shift 79); (56, Shift 80); (57, Shift 65); (63, Reduce (BN FullExpression) 13)]
  [(100, 62); (101, 78); (105, 366); (154, 76); (155, 77); (156, 64)];
mkstate [(10, Shift 149); (19, Shift 153); (23, Shift 148); (26, Shift 144); (28, Shift 150); (31, Shift 145); (32, Shift 152); (37, Shift 63); (49, Shift 158); (50, Shift 73); (51, Shift 60); (53, Shift 74); (54, Shift 159); (55, Shift 79); (56, Shift 80); (57, Shift 65)]
  [(100, 62); (101, 154); (104, 151); (105, 146); (126, 430); (132, 147); (133, 155); (152, 156); (154, 76); (155, 77); (156, 64); (158, 157)];
mkstate [(2, Reduce (BN FullExpression) 15); (5, Reduce (BN FullExpression) 15); (8, Shift 99); (13, Reduce (BN FullExpression) 15); (26, Reduce (BN FullExpression) 15); (27, Reduce (BN FullExpression) 15); (30, Reduce (BN FullExpression) 15); (33, Reduce (BN FullExpression) 15); (34, Reduce (BN FullExpression) 15); (37, Shift 63); (38, Reduce (BN FullExpression) 15); (43, Shift 103); (45, Reduce (BN FullExpression) 15); (48, Reduce (BN FullExpression) 15); (50, Shift 73); (51, Shift 60); (53, Shift 74); (57, Shift 65); (58, Shift 92); (63, Reduce (BN FullExpression) 15)]
  [(100, 62); (101, 91); (104, 100); (110, 332); (111, 102); (152, 72); (156, 64); (157, 101)];
mkstate [(2, Reduce (BN ValueLiteral) 3); (5, Reduce (BN ValueLiteral) 3); (11, Reduce (BN ValueLiteral) 3); (13, Reduce (BN ValueLiteral) 3); (26, Reduce (BN ValueLiteral) 3); (27, Reduce (BN ValueLiteral) 3); (30, Reduce (BN ValueLiteral) 3); (33, Reduce (BN ValueLiteral) 3); (34, Reduce (BN ValueLiteral) 3); (38, Reduce (BN ValueLiteral) 3); (45, Reduce (BN ValueLiteral) 3); (48, Reduce (BN ValueLiteral) 3); (63, Reduce (BN ValueLiteral) 3)]
  [];
mkstate [(10, Shift 149); (19, Shift 153); (23, Shift 148); (26, Shift 144); (28, Shift 150); (31, Shift 145); (32, Shift 152); (37, Shift 63); (49, Shift 158); (50, Shift 73); (51, Shift 60); (53, Shift 74); (54, Shift 159); (55, Shift 79); (56, Shift 80); (57, Shift 65)]
  [(100, 62); (101, 154); (104, 151); (105, 146); (126, 431); (132, 147); (133, 155); (152, 156); (154, 76); (155, 77); (156, 64); (158, 157)];
mkstate [(8, Reduce (BP (Nt ArgumentPattern)) 1); (9, Reduce (BP (Nt ArgumentPattern)) 1); (13, Reduce (BP (Nt ArgumentPattern)) 1); (21, Reduce (BP (Nt ArgumentPattern)) 1); (37, Reduce (BP (Nt ArgumentPattern)) 1); (50, Reduce (BP (Nt ArgumentPattern)) 1); (51, Reduce (BP (Nt ArgumentPattern)) 1); (53, Reduce (BP (Nt ArgumentPattern)) 1); (55, Reduce (BP (Nt ArgumentPattern)) 1); (57, Reduce (BP (Nt ArgumentPattern)) 1); (63, Reduce (BP (Nt ArgumentPattern)) 1)]
  [];
mkstate [(8, Reduce (BN ArgumentPattern) 3); (9, Reduce (BN ArgumentPattern) 3); (13, Reduce (BN ArgumentPattern) 3); (21, Reduce (BN ArgumentPattern) 3); (37, Reduce (BN ArgumentPattern) 3); (50, Reduce (BN ArgumentPattern) 3); (51, Reduce (BN ArgumentPattern) 3); (53, Reduce (BN ArgumentPattern) 3); (55, Reduce (BN ArgumentPattern) 3); (57, Reduce (BN ArgumentPattern) 3); (63, Reduce (BN ArgumentPattern) 3)]
  [];
mkstate [(2, Reduce (BN MessageEntry) 0); (11, Reduce (BN MessageEntry) 0); (63, Reduce (BN MessageEntry) 0)]
  [];
mkstate [(2, Reduce (BN MessageEntry) 1); (11, Reduce (BN MessageEntry) 1); (63, Reduce (BN MessageEntry) 1)]
  [];
mkstate [(2, Reduce (BN Statement) 0); (5, Reduce (BN Statement) 0); (30, Reduce (BN Statement) 0); (63, Reduce (BN Statement) 0)]
  [];
mkstate [(37, Shift 63); (40, Shift 435); (51, Shift 60); (55, Shift 79); (56, Shift 80); (57, Shift 65)]
  [(100, 62); (101, 432); (105, 436); (154, 433); (155, 434); (156, 64)];
mkstate [(2, Reduce (BN VariableIdentifier) 0); (5, Reduce (BN VariableIdentifier) 0); (6, Shift 206); (30, Reduce (BN VariableIdentifier) 0); (63, Reduce (BN VariableIdentifier) 0)]
  [(141, 300); (341, 437)];
mkstate [(55, Shift 79)]
  [(154, 438)];
mkstate [(2, Reduce (BN Statement) 2); (5, Reduce (BN Statement) 2); (30, Reduce (BN Statement) 2); (63, Reduce (BN Statement) 2)]
  [];
mkstate [(2, Reduce (BN Statement) 3); (5, Reduce (BN Statement) 3); (30, Reduce (BN Statement) 3); (63, Reduce (BN Statement) 3)]
  [];
mkstate [(37, Shift 63); (51, Shift 60); (55, Shift 79); (56, Shift 80); (57, Shift 65)]
  [(100, 62); (101, 78); (105, 439); (154, 76); (155, 77); (156, 64)];
mkstate [(2, Reduce (BP (Nt MapAccess)) 1); (5, Reduce (BP (Nt MapAccess)) 1); (6, Reduce (BP (Nt MapAccess)) 1); (18, Reduce (BP (Nt MapAccess)) 1); (30, Reduce (BP (Nt MapAccess)) 1); (63, Reduce (BP (Nt MapAccess)) 1)]
  [];
mkstate [(2, Reduce (BN Statement) 9); (5, Reduce (BN Statement) 9); (6, Shift 206); (30, Reduce (BN Statement) 9); (63, Reduce (BN Statement) 9)]
  [(141, 389)];
mkstate [(5, Shift 202)]
  [(139, 441); (339, 440)];
mkstate [(2, Reduce (BN Statement) 18); (5, Reduce (BN Statement) 18); (30, Reduce (BN Statement) 18); (63, Reduce (BN Statement) 18)]
  [];
mkstate [(2, Reduce (BP (Nt NextStatement)) 1); (5, Reduce (BP (Nt NextStatement)) 1); (30, Reduce (BP (Nt NextStatement)) 1); (63, Reduce (BP (Nt NextStatement)) 1)]
  [];
mkstate [(2, Reduce (BN BlockchainFetchArguments) 0); (5, Reduce (BN BlockchainFetchArguments) 0); (30, Reduce (BN BlockchainFetchArguments) 0); (63, Reduce (BN BlockchainFetchArguments) 0)]
  [];
mkstate [(5, Reduce (BN PatternMatchClause) 0); (22, Shift 191); (28, Shift 189); (30, Reduce (BN PatternMatchClause) 0); (35, Shift 186); (36, Shift 187); (37, Shift 63); (39, Shift 185); (41, Shift 184); (42, Shift 188); (51, Shift 60); (55, Shift 79); (57, Shift 65); (63, Reduce (BN PatternMatchClause) 0)]
  [(100, 62); (101, 192); (134, 196); (136, 442); (138, 190); (140, 183); (154, 182); (156, 64)];
mkstate [(37, Shift 63); (40, Shift 435); (51, Shift 60); (55, Shift 79); (56, Shift 80); (57, Shift 65)]
  [(100, 62); (101, 78); (105, 436); (154, 433); (155, 434); (156, 64)];
mkstate [(2, Reduce (BN MapAccess) 0); (5, Reduce (BN MapAccess) 0); (6, Reduce (BN MapAccess) 0); (18, Reduce (BN MapAccess) 0); (30, Reduce (BN MapAccess) 0); (63, Reduce (BN MapAccess) 0)]
  [];
mkstate [(22, Reduce (BN ComponentParameters) 1); (28, Reduce (BN ComponentParameters) 1); (29, Reduce (BN ComponentParameters) 1); (30, Reduce (BN ComponentParameters) 1); (34, Reduce (BN ComponentParameters) 1); (35, Reduce (BN ComponentParameters) 1); (36, Reduce (BN ComponentParameters) 1); (37, Reduce (BN ComponentParameters) 1); (38, Reduce (BN ComponentParameters) 1); (39, Reduce (BN ComponentParameters) 1); (41, Reduce (BN ComponentParameters) 1); (42, Reduce (BN ComponentParameters) 1); (48, Reduce (BN ComponentParameters) 1); (51, Reduce (BN ComponentParameters) 1); (55, Reduce (BN ComponentParameters) 1); (57, Reduce (BN ComponentParameters) 1); (63, Reduce (BN ComponentParameters) 1)]
  [];
mkstate [(9, Reduce (BP (Nt NextParameterPair)) 1); (12, Reduce (BP (Nt NextParameterPair)) 1)]
  [];
mkstate [(22, Reduce (BN ComponentParameters) 2); (28, Reduce (BN ComponentParameters) 2); (29, Reduce (BN ComponentParameters) 2); (30, Reduce (BN ComponentParameters) 2); (34, Reduce (BN ComponentParameters) 2); (35, Reduce (BN ComponentParameters) 2); (36, Reduce (BN ComponentParameters) 2); (37, Reduce (BN ComponentParameters) 2); (38, Reduce (BN ComponentParameters) 2); (39, Reduce (BN ComponentParameters) 2); (41, Reduce (BN ComponentParameters) 2); (42, Reduce (BN ComponentParameters) 2); (48, Reduce (BN ComponentParameters) 2); (51, Reduce (BN ComponentParameters) 2); (55, Reduce (BN ComponentParameters) 2); (57, Reduce (BN ComponentParameters) 2); (63, Reduce (BN ComponentParameters) 2)]
  [];
mkstate [(9, Shift 443); (12, Shift 210)]
  [(143, 399)];
mkstate [(22, Shift 191); (28, Shift 189); (30, Shift 221); (35, Shift 186); (36, Shift 187); (37, Shift 63); (39, Shift 185); (41, Shift 184); (42, Shift 188); (51, Shift 60); (55, Shift 79); (57, Shift 65)]
  [(100, 62); (101, 192); (134, 196); (136, 222); (138, 190); (140, 183); (148, 444); (154, 182); (156, 64)];
mkstate [(22, Shift 191); (28, Shift 189); (30, Shift 221); (35, Shift 186); (36, Shift 187); (37, Shift 63); (39, Shift 185); (41, Shift 184); (42, Shift 188); (51, Shift 60); (55, Shift 79); (57, Shift 65)]
  [(100, 62); (101, 192); (134, 196); (136, 222); (138, 190); (140, 183); (148, 445); (154, 182); (156, 64)];
mkstate [(29, Shift 228); (34, Shift 216); (38, Shift 226); (48, Shift 217); (63, Reduce (BN ContractDefinition) 0)]
  [(145, 449); (146, 214); (147, 215); (150, 450); (151, 448); (345, 446); (350, 447)];
mkstate [(10, Shift 149); (19, Shift 153); (23, Shift 148); (26, Shift 144); (28, Shift 150); (31, Shift 145); (32, Shift 152); (37, Shift 63); (49, Shift 158); (50, Shift 73); (51, Shift 60); (53, Shift 74); (54, Shift 159); (55, Shift 79); (56, Shift 80); (57, Shift 65)]
  [(100, 62); (101, 154); (104, 151); (105, 146); (126, 451); (132, 147); (133, 155); (152, 156); (154, 76); (155, 77); (156, 64); (158, 157)];
mkstate [(34, Reduce (BN WithConstraint) 0); (38, Reduce (BN WithConstraint) 0); (48, Reduce (BN WithConstraint) 0); (63, Reduce (BN WithConstraint) 0)]
  [];
mkstate [(9, Reduce (BN RemainingTypes) 5); (12, Reduce (BN RemainingTypes) 5); (14, Reduce (BN RemainingTypes) 5); (15, Reduce (BN RemainingTypes) 5); (30, Reduce (BN RemainingTypes) 5); (63, Reduce (BN RemainingTypes) 5)]
  [];
mkstate [(2, Reduce (BN AddressType) 1); (5, Reduce (BN AddressType) 1); (8, Reduce (BN AddressType) 1); (9, Reduce (BN AddressType) 1); (11, Reduce (BN AddressType) 1); (12, Reduce (BN AddressType) 1); (13, Reduce (BN AddressType) 1); (14, Reduce (BN AddressType) 1); (15, Reduce (BN AddressType) 1); (26, Reduce (BN AddressType) 1); (27, Reduce (BN AddressType) 1); (30, Reduce (BN AddressType) 1); (33, Reduce (BN AddressType) 1); (34, Reduce (BN AddressType) 1); (37, Reduce (BN AddressType) 1); (38, Reduce (BN AddressType) 1); (43, Reduce (BN AddressType) 1); (45, Reduce (BN AddressType) 1); (48, Reduce (BN AddressType) 1); (50, Reduce (BN AddressType) 1); (51, Reduce (BN AddressType) 1); (53, Reduce (BN AddressType) 1); (57, Reduce (BN AddressType) 1); (58, Reduce (BN AddressType) 1); (63, Reduce (BN AddressType) 1)]
  [];
mkstate [(30, Shift 452)]
  [];
mkstate [(2, Reduce (BN AddressType) 3); (5, Reduce (BN AddressType) 3); (8, Reduce (BN AddressType) 3); (9, Reduce (BN AddressType) 3); (11, Reduce (BN AddressType) 3); (12, Reduce (BN AddressType) 3); (13, Reduce (BN AddressType) 3); (14, Reduce (BN AddressType) 3); (15, Reduce (BN AddressType) 3); (26, Reduce (BN AddressType) 3); (27, Reduce (BN AddressType) 3); (30, Reduce (BN AddressType) 3); (33, Reduce (BN AddressType) 3); (34, Reduce (BN AddressType) 3); (37, Reduce (BN AddressType) 3); (38, Reduce (BN AddressType) 3); (43, Reduce (BN AddressType) 3); (45, Reduce (BN AddressType) 3); (48, Reduce (BN AddressType) 3); (50, Reduce (BN AddressType) 3); (51, Reduce (BN AddressType) 3); (53, Reduce (BN AddressType) 3); (57, Reduce (BN AddressType) 3); (58, Reduce (BN AddressType) 3); (63, Reduce (BN AddressType) 3)]
  [];
mkstate [(2, Reduce (BN AddressType) 4); (5, Reduce (BN AddressType) 4); (8, Reduce (BN AddressType) 4); (9, Reduce (BN AddressType) 4); (11, Reduce (BN AddressType) 4); (12, Reduce (BN AddressType) 4); (13, Reduce (BN AddressType) 4); (14, Reduce (BN AddressType) 4); (15, Reduce (BN AddressType) 4); (26, Reduce (BN AddressType) 4); (27, Reduce (BN AddressType) 4); (30, Reduce (BN AddressType) 4); (33, Reduce (BN AddressType) 4); (34, Reduce (BN AddressType) 4); (37, Reduce (BN AddressType) 4); (38, Reduce (BN AddressType) 4); (43, Reduce (BN AddressType) 4); (45, Reduce (BN AddressType) 4); (48, Reduce (BN AddressType) 4); (50, Reduce (BN AddressType) 4); (51, Reduce (BN AddressType) 4); (53, Reduce (BN AddressType) 4); (57, Reduce (BN AddressType) 4); (58, Reduce (BN AddressType) 4); (63, Reduce (BN AddressType) 4)]
  [];
mkstate [(12, Reduce (BN AddressTypeField) 0); (30, Reduce (BN AddressTypeField) 0); (63, Reduce (BN AddressTypeField) 0)]
  [];
mkstate [(63, Reduce (BN Program) 1)]
  [];
mkstate [(63, Reduce (BN Program) 2)]
  [];
mkstate [(33, Shift 224)]
  [(149, 453)];
mkstate [(26, Reduce (BP (Nt LibrarySingleDefinition)) 1); (33, Reduce (BP (Nt LibrarySingleDefinition)) 1); (45, Reduce (BP (Nt LibrarySingleDefinition)) 1); (63, Reduce (BP (Nt LibrarySingleDefinition)) 1)]
  [];
mkstate [(26, Reduce (BN LibrarySingleDefinition) 0); (33, Reduce (BN LibrarySingleDefinition) 0); (45, Reduce (BN LibrarySingleDefinition) 0); (63, Reduce (BN LibrarySingleDefinition) 0)]
  [];
mkstate [(10, Shift 149); (19, Shift 153); (23, Shift 148); (26, Shift 144); (28, Shift 150); (31, Shift 145); (32, Shift 152); (37, Shift 63); (49, Shift 158); (50, Shift 73); (51, Shift 60); (53, Shift 74); (54, Shift 159); (55, Shift 79); (56, Shift 80); (57, Shift 65)]
  [(100, 62); (101, 154); (104, 151); (105, 146); (126, 454); (132, 147); (133, 155); (152, 156); (154, 76); (155, 77); (156, 64); (158, 157)];
mkstate [(5, Shift 137); (26, Reduce (BN LibrarySingleDefinition) 3); (33, Reduce (BN LibrarySingleDefinition) 3); (45, Reduce (BN LibrarySingleDefinition) 3); (63, Reduce (BN LibrarySingleDefinition) 3)]
  [(123, 455)];
mkstate [(5, Reduce (BP (Nt TypeAlternativeClause)) 0); (26, Reduce (BP (Nt TypeAlternativeClause)) 0); (33, Reduce (BP (Nt TypeAlternativeClause)) 0); (45, Reduce (BP (Nt TypeAlternativeClause)) 0); (63, Reduce (BP (Nt TypeAlternativeClause)) 0)]
  [];
mkstate [(5, Reduce (BN TypeAlternativeClause) 1); (8, Shift 99); (26, Reduce (BN TypeAlternativeClause) 1); (33, Reduce (BN TypeAlternativeClause) 1); (37, Shift 63); (43, Shift 103); (45, Reduce (BN TypeAlternativeClause) 1); (50, Shift 73); (51, Shift 60); (53, Shift 74); (57, Shift 65); (58, Shift 92); (63, Reduce (BN TypeAlternativeClause) 1)]
  [(100, 62); (101, 91); (104, 100); (110, 332); (111, 102); (152, 72); (156, 64); (157, 101)];
mkstate [(27, Shift 456)]
  [];
mkstate [(10, Shift 149); (19, Shift 153); (23, Shift 148); (26, Shift 144); (28, Shift 150); (31, Shift 145); (32, Shift 152); (37, Shift 63); (49, Shift 158); (50, Shift 73); (51, Shift 60); (53, Shift 74); (54, Shift 159); (55, Shift 79); (56, Shift 80); (57, Shift 65)]
  [(100, 62); (101, 154); (104, 151); (105, 146); (126, 457); (132, 147); (133, 155); (152, 156); (154, 76); (155, 77); (156, 64); (158, 157)];
mkstate [(9, Shift 458)]
  [];
mkstate [(2, Reduce (BN FullExpression) 6); (5, Reduce (BN FullExpression) 6); (13, Reduce (BN FullExpression) 6); (26, Reduce (BN FullExpression) 6); (27, Reduce (BN FullExpression) 6); (30, Reduce (BN FullExpression) 6); (33, Reduce (BN FullExpression) 6); (34, Reduce (BN FullExpression) 6); (37, Shift 63); (38, Reduce (BN FullExpression) 6); (45, Reduce (BN FullExpression) 6); (48, Reduce (BN FullExpression) 6); (51, Shift 60); (55, Shift 79); (56, Shift 80); (57, Shift 65); (63, Reduce (BN FullExpression) 6)]
  [(100, 62); (101, 78); (105, 244); (154, 76); (155, 77); (156, 64)];
mkstate [(2, Reduce (BN FullExpression) 8); (5, Reduce (BN FullExpression) 8); (13, Reduce (BN FullExpression) 8); (26, Reduce (BN FullExpression) 8); (27, Reduce (BN FullExpression) 8); (30, Reduce (BN FullExpression) 8); (33, Reduce (BN FullExpression) 8); (34, Reduce (BN FullExpression) 8); (38, Reduce (BN FullExpression) 8); (45, Reduce (BN FullExpression) 8); (48, Reduce (BN FullExpression) 8); (63, Reduce (BN FullExpression) 8)]
  [];
mkstate [(2, Reduce (BP (Nt NextMessageEntry)) 1); (11, Reduce (BP (Nt NextMessageEntry)) 1)]
  [];
mkstate [(5, Shift 161); (30, Shift 459)]
  [(127, 460)];
mkstate [(5, Reduce (BP (Nt PatternMatchExpressionClause)) 0); (30, Reduce (BP (Nt PatternMatchExpressionClause)) 0)]
  [];
mkstate [(2, Reduce (BN FullExpression) 14); (5, Reduce (BN FullExpression) 14); (13, Reduce (BN FullExpression) 14); (26, Reduce (BN FullExpression) 14); (27, Reduce (BN FullExpression) 14); (30, Reduce (BN FullExpression) 14); (33, Reduce (BN FullExpression) 14); (34, Reduce (BN FullExpression) 14); (38, Reduce (BN FullExpression) 14); (45, Reduce (BN FullExpression) 14); (48, Reduce (BN FullExpression) 14); (63, Reduce (BN FullExpression) 14)]
  [];
mkstate [(5, Reduce (BN PatternMatchExpressionClause) 0); (30, Reduce (BN PatternMatchExpressionClause) 0); (63, Reduce (BN PatternMatchExpressionClause) 0)]
  [];
mkstate [(2, Reduce (BN Statement) 4); (4, Shift 243); (5, Reduce (BN Statement) 4); (8, Shift 198); (30, Reduce (BN Statement) 4); (63, Reduce (BN Statement) 4)]
  [(137, 461)];
mkstate [(4, Shift 462); (47, Reduce (BN VariableIdentifier) 0)]
  [];
mkstate [(4, Shift 463); (47, Reduce (BN VariableIdentifier) 1)]
  [];
mkstate [(55, Shift 79)]
  [(154, 464)];
mkstate [(47, Shift 465)]
  [];
mkstate [(2, Reduce (BN Statement) 6); (5, Reduce (BN Statement) 6); (6, Shift 206); (30, Reduce (BN Statement) 6); (63, Reduce (BN Statement) 6)]
  [(141, 389)];
mkstate [(6, Shift 206)]
  [(141, 300); (341, 466)];
mkstate [(2, Reduce (BN Statement) 8); (5, Reduce (BN Statement) 8); (30, Reduce (BN Statement) 8); (63, Reduce (BN Statement) 8)]
  [];
mkstate [(5, Shift 202); (30, Shift 467)]
  [(139, 468)];
mkstate [(5, Reduce (BP (Nt PatternMatchClause)) 0); (30, Reduce (BP (Nt PatternMatchClause)) 0)]
  [];
mkstate [(5, Reduce (BN PatternMatchClause) 1); (30, Reduce (BN PatternMatchClause) 1); (63, Reduce (BN PatternMatchClause) 1)]
  [];
mkstate [(22, Reduce (BN ComponentParameters) 3); (28, Reduce (BN ComponentParameters) 3); (29, Reduce (BN ComponentParameters) 3); (30, Reduce (BN ComponentParameters) 3); (34, Reduce (BN ComponentParameters) 3); (35, Reduce (BN ComponentParameters) 3); (36, Reduce (BN ComponentParameters) 3); (37, Reduce (BN ComponentParameters) 3); (38, Reduce (BN ComponentParameters) 3); (39, Reduce (BN ComponentParameters) 3); (41, Reduce (BN ComponentParameters) 3); (42, Reduce (BN ComponentParameters) 3); (48, Reduce (BN ComponentParameters) 3); (51, Reduce (BN ComponentParameters) 3); (55, Reduce (BN ComponentParameters) 3); (57, Reduce (BN ComponentParameters) 3); (63, Reduce (BN ComponentParameters) 3)]
  [];
mkstate [(34, Reduce (BN TransitionDefinition) 0); (48, Reduce (BN TransitionDefinition) 0); (63, Reduce (BN TransitionDefinition) 0)]
  [];
mkstate [(34, Reduce (BN ProcedureDefinition) 0); (48, Reduce (BN ProcedureDefinition) 0); (63, Reduce (BN ProcedureDefinition) 0)]
  [];
mkstate [(34, Shift 216); (48, Shift 217); (63, Reduce (BN ContractDefinition) 1)]
  [(145, 469); (146, 214); (147, 215)];
mkstate [(34, Shift 216); (38, Shift 226); (48, Shift 217); (63, Reduce (BN ContractDefinition) 2)]
  [(145, 449); (146, 214); (147, 215); (150, 471); (345, 470)];
mkstate [(34, Shift 216); (38, Shift 226); (48, Shift 217); (63, Reduce (BN ContractDefinition) 4)]
  [(145, 449); (146, 214); (147, 215); (150, 450); (345, 472); (350, 473)];
mkstate [(34, Reduce (BP (Nt ComponentDefinition)) 0); (48, Reduce (BP (Nt ComponentDefinition)) 0); (63, Reduce (BP (Nt ComponentDefinition)) 0)]
  [];
mkstate [(34, Reduce (BP (Nt ContractField)) 0); (38, Reduce (BP (Nt ContractField)) 0); (48, Reduce (BP (Nt ContractField)) 0); (63, Reduce (BP (Nt ContractField)) 0)]
  [];
mkstate [(34, Reduce (BN ContractField) 0); (38, Reduce (BN ContractField) 0); (48, Reduce (BN ContractField) 0); (63, Reduce (BN ContractField) 0)]
  [];
mkstate [(2, Reduce (BN AddressType) 2); (5, Reduce (BN AddressType) 2); (8, Reduce (BN AddressType) 2); (9, Reduce (BN AddressType) 2); (11, Reduce (BN AddressType) 2); (12, Reduce (BN AddressType) 2); (13, Reduce (BN AddressType) 2); (14, Reduce (BN AddressType) 2); (15, Reduce (BN AddressType) 2); (26, Reduce (BN AddressType) 2); (27, Reduce (BN AddressType) 2); (30, Reduce (BN AddressType) 2); (33, Reduce (BN AddressType) 2); (34, Reduce (BN AddressType) 2); (37, Reduce (BN AddressType) 2); (38, Reduce (BN AddressType) 2); (43, Reduce (BN AddressType) 2); (45, Reduce (BN AddressType) 2); (48, Reduce (BN AddressType) 2); (50, Reduce (BN AddressType) 2); (51, Reduce (BN AddressType) 2); (53, Reduce (BN AddressType) 2); (57, Reduce (BN AddressType) 2); (58, Reduce (BN AddressType) 2); (63, Reduce (BN AddressType) 2)]
  [];
mkstate [(63, Reduce (BN Program) 3)]
  [];
mkstate [(26, Reduce (BN LibrarySingleDefinition) 1); (33, Reduce (BN LibrarySingleDefinition) 1); (45, Reduce (BN LibrarySingleDefinition) 1); (63, Reduce (BN LibrarySingleDefinition) 1)]
  [];
mkstate [(5, Reduce (BP (Nt TypeAlternativeClause)) 1); (26, Reduce (BP (Nt TypeAlternativeClause)) 1); (33, Reduce (BP (Nt TypeAlternativeClause)) 1); (45, Reduce (BP (Nt TypeAlternativeClause)) 1); (63, Reduce (BP (Nt TypeAlternativeClause)) 1)]
  [];
mkstate [(10, Shift 149); (19, Shift 153); (23, Shift 148); (26, Shift 144); (28, Shift 150); (31, Shift 145); (32, Shift 152); (37, Shift 63); (49, Shift 158); (50, Shift 73); (51, Shift 60); (53, Shift 74); (54, Shift 159); (55, Shift 79); (56, Shift 80); (57, Shift 65)]
  [(100, 62); (101, 154); (104, 151); (105, 146); (126, 474); (132, 147); (133, 155); (152, 156); (154, 76); (155, 77); (156, 64); (158, 157)];
mkstate [(27, Shift 475)]
  [];
mkstate [(13, Shift 476)]
  [];
mkstate [(2, Reduce (BN FullExpression) 9); (5, Reduce (BN FullExpression) 9); (13, Reduce (BN FullExpression) 9); (26, Reduce (BN FullExpression) 9); (27, Reduce (BN FullExpression) 9); (30, Reduce (BN FullExpression) 9); (33, Reduce (BN FullExpression) 9); (34, Reduce (BN FullExpression) 9); (38, Reduce (BN FullExpression) 9); (45, Reduce (BN FullExpression) 9); (48, Reduce (BN FullExpression) 9); (63, Reduce (BN FullExpression) 9)]
  [];
mkstate [(5, Reduce (BP (Nt PatternMatchExpressionClause)) 1); (30, Reduce (BP (Nt PatternMatchExpressionClause)) 1)]
  [];
mkstate [(2, Reduce (BN Statement) 5); (5, Reduce (BN Statement) 5); (30, Reduce (BN Statement) 5); (63, Reduce (BN Statement) 5)]
  [];
mkstate [(37, Shift 63); (51, Shift 60); (55, Shift 79); (56, Shift 80); (57, Shift 65)]
  [(100, 62); (101, 78); (105, 477); (154, 478); (155, 77); (156, 64)];
mkstate [(56, Shift 80)]
  [(155, 479)];
mkstate [(4, Shift 480)]
  [];
mkstate [(37, Shift 63); (51, Shift 60); (57, Shift 65)]
  [(100, 62); (101, 105); (111, 481); (156, 64)];
mkstate [(2, Reduce (BN Statement) 7); (5, Reduce (BN Statement) 7); (6, Shift 206); (30, Reduce (BN Statement) 7); (63, Reduce (BN Statement) 7)]
  [(141, 389)];
mkstate [(2, Reduce (BN Statement) 15); (5, Reduce (BN Statement) 15); (30, Reduce (BN Statement) 15); (63, Reduce (BN Statement) 15)]
  [];
mkstate [(5, Reduce (BP (Nt PatternMatchClause)) 1); (30, Reduce (BP (Nt PatternMatchClause)) 1)]
  [];
mkstate [(34, Reduce (BP (Nt ComponentDefinition)) 1); (48, Reduce (BP (Nt ComponentDefinition)) 1); (63, Reduce (BP (Nt ComponentDefinition)) 1)]
  [];
mkstate [(34, Shift 216); (48, Shift 217); (63, Reduce (BN ContractDefinition) 3)]
  [(145, 469); (146, 214); (147, 215)];
mkstate [(34, Reduce (BP (Nt ContractField)) 1); (38, Reduce (BP (Nt ContractField)) 1); (48, Reduce (BP (Nt ContractField)) 1); (63, Reduce (BP (Nt ContractField)) 1)]
  [];
mkstate [(34, Shift 216); (48, Shift 217); (63, Reduce (BN ContractDefinition) 5)]
  [(145, 469); (146, 214); (147, 215)];
mkstate [(34, Shift 216); (38, Shift 226); (48, Shift 217); (63, Reduce (BN ContractDefinition) 6)]
  [(145, 449); (146, 214); (147, 215); (150, 471); (345, 482)];
mkstate [(2, Reduce (BN FullExpression) 0); (5, Reduce (BN FullExpression) 0); (13, Reduce (BN FullExpression) 0); (26, Reduce (BN FullExpression) 0); (27, Reduce (BN FullExpression) 0); (30, Reduce (BN FullExpression) 0); (33, Reduce (BN FullExpression) 0); (34, Reduce (BN FullExpression) 0); (38, Reduce (BN FullExpression) 0); (45, Reduce (BN FullExpression) 0); (48, Reduce (BN FullExpression) 0); (63, Reduce (BN FullExpression) 0)]
  [];
mkstate [(10, Shift 149); (19, Shift 153); (23, Shift 148); (26, Shift 144); (28, Shift 150); (31, Shift 145); (32, Shift 152); (37, Shift 63); (49, Shift 158); (50, Shift 73); (51, Shift 60); (53, Shift 74); (54, Shift 159); (55, Shift 79); (56, Shift 80); (57, Shift 65)]
  [(100, 62); (101, 154); (104, 151); (105, 146); (126, 483); (132, 147); (133, 155); (152, 156); (154, 76); (155, 77); (156, 64); (158, 157)];
mkstate [(10, Shift 149); (19, Shift 153); (23, Shift 148); (26, Shift 144); (28, Shift 150); (31, Shift 145); (32, Shift 152); (37, Shift 63); (49, Shift 158); (50, Shift 73); (51, Shift 60); (53, Shift 74); (54, Shift 159); (55, Shift 79); (56, Shift 80); (57, Shift 65)]
  [(100, 62); (101, 154); (104, 151); (105, 146); (126, 484); (132, 147); (133, 155); (152, 156); (154, 76); (155, 77); (156, 64); (158, 157)];
mkstate [(2, Reduce (BN RemoteFetchStatement) 0); (5, Reduce (BN RemoteFetchStatement) 0); (30, Reduce (BN RemoteFetchStatement) 0); (63, Reduce (BN RemoteFetchStatement) 0)]
  [];
mkstate [(2, Reduce (BN VariableIdentifier) 0); (5, Reduce (BN VariableIdentifier) 0); (6, Shift 206); (30, Reduce (BN VariableIdentifier) 0); (63, Reduce (BN VariableIdentifier) 0)]
  [(141, 300); (341, 485)];
mkstate [(2, Reduce (BN RemoteFetchStatement) 1); (5, Reduce (BN RemoteFetchStatement) 1); (30, Reduce (BN RemoteFetchStatement) 1); (63, Reduce (BN RemoteFetchStatement) 1)]
  [];
mkstate [(55, Shift 79)]
  [(154, 486)];
mkstate [(2, Reduce (BN RemoteFetchStatement) 4); (5, Reduce (BN RemoteFetchStatement) 4); (30, Reduce (BN RemoteFetchStatement) 4); (63, Reduce (BN RemoteFetchStatement) 4)]
  [];
mkstate [(34, Shift 216); (48, Shift 217); (63, Reduce (BN ContractDefinition) 7)]
  [(145, 469); (146, 214); (147, 215)];
mkstate [(2, Reduce (BN FullExpression) 1); (5, Reduce (BN FullExpression) 1); (13, Reduce (BN FullExpression) 1); (26, Reduce (BN FullExpression) 1); (27, Reduce (BN FullExpression) 1); (30, Reduce (BN FullExpression) 1); (33, Reduce (BN FullExpression) 1); (34, Reduce (BN FullExpression) 1); (38, Reduce (BN FullExpression) 1); (45, Reduce (BN FullExpression) 1); (48, Reduce (BN FullExpression) 1); (63, Reduce (BN FullExpression) 1)]
  [];
mkstate [(2, Reduce (BN FullExpression) 2); (5, Reduce (BN FullExpression) 2); (13, Reduce (BN FullExpression) 2); (26, Reduce (BN FullExpression) 2); (27, Reduce (BN FullExpression) 2); (30, Reduce (BN FullExpression) 2); (33, Reduce (BN FullExpression) 2); (34, Reduce (BN FullExpression) 2); (38, Reduce (BN FullExpression) 2); (45, Reduce (BN FullExpression) 2); (48, Reduce (BN FullExpression) 2); (63, Reduce (BN FullExpression) 2)]
  [];
mkstate [(2, Reduce (BN RemoteFetchStatement) 2); (5, Reduce (BN RemoteFetchStatement) 2); (6, Shift 206); (30, Reduce (BN RemoteFetchStatement) 2); (63, Reduce (BN RemoteFetchStatement) 2)]
  [(141, 389)];
mkstate [(6, Shift 206)]
  [(141, 300); (341, 487)];
mkstate [(2, Reduce (BN RemoteFetchStatement) 3); (5, Reduce (BN RemoteFetchStatement) 3); (6, Shift 206); (30, Reduce (BN RemoteFetchStatement) 3); (63, Reduce (BN RemoteFetchStatement) 3)]
  [(141, 389)]
].

(** Start state of each entry point. *)
Definition start_state (A : nt) : N := nt_code A.

(** Certificates used by the checker only: LR(1) items (production, dot, look-ahead
    set as a bit mask) of every state, FIRST sets, ranks and depths. *)
Definition state_items : list (list (bsym * nat * nat * N)) := [
[((BS ByteString), 0%nat, 0%nat, 9223372036854775808); ((BN ByteString), 0%nat, 0%nat, 9223372036854775808)];
[((BS TypeNameIdentifier), 0%nat, 0%nat, 9223372036854775808); ((BN TypeNameIdentifier), 0%nat, 0%nat, 9223372036854775808); ((BN TypeNameIdentifier), 1%nat, 0%nat, 9223372036854775808); ((BN TypeNameIdentifier), 2%nat, 0%nat, 9223372036854775808); ((BN ByteString), 0%nat, 0%nat, 9223372036854775808); ((BN TypeOrEnumLikeIdentifierId), 0%nat, 0%nat, 9223372036854775808)];
[((BS ImportedName), 0%nat, 0%nat, 9223372036854775808); ((BN ImportedName), 0%nat, 0%nat, 9223372036854775808); ((BN ImportedName), 1%nat, 0%nat, 9223372036854775808); ((BN TypeNameIdentifier), 0%nat, 0%nat, 9223512774343131136); ((BN TypeNameIdentifier), 1%nat, 0%nat, 9223512774343131136); ((BN TypeNameIdentifier), 2%nat, 0%nat, 9223512774343131136); ((BN ByteString), 0%nat, 0%nat, 9223512774343131136); ((BN TypeOrEnumLikeIdentifierId), 0%nat, 0%nat, 9223512774343131136)];
[((BS ImportDeclarations), 0%nat, 0%nat, 9223372036854775808); ((BN ImportDeclarations), 0%nat, 0%nat, 9223372036888330240); ((BN ImportDeclarations), 1%nat, 0%nat, 9223372036888330240)];
[((BS MetaIdentifier), 0%nat, 0%nat, 9223372036854775808); ((BN MetaIdentifier), 0%nat, 0%nat, 9223372036854775808); ((BN MetaIdentifier), 1%nat, 0%nat, 9223372036854775808); ((BN MetaIdentifier), 2%nat, 0%nat, 9223372036854775808); ((BN MetaIdentifier), 3%nat, 0%nat, 9223372036854775808); ((BN TypeNameIdentifier), 0%nat, 0%nat, 9223372036854775824); ((BN TypeNameIdentifier), 1%nat, 0%nat, 9223372036854775824); ((BN TypeNameIdentifier), 2%nat, 0%nat, 9223372036854775824); ((BN HexNumber), 0%nat, 0%nat, 16); ((BN ByteString), 0%nat, 0%nat, 9223372036854775824); ((BN TypeOrEnumLikeIdentifierId), 0%nat, 0%nat, 9223372036854775824)];
[((BS VariableIdentifier), 0%nat, 0%nat, 9223372036854775808); ((BN VariableIdentifier), 0%nat, 0%nat, 9223372036854775808); ((BN VariableIdentifier), 1%nat, 0%nat, 9223372036854775808); ((BN VariableIdentifier), 2%nat, 0%nat, 9223372036854775808); ((BN RegularId), 0%nat, 0%nat, 9223372036854775808); ((BN SpecialId), 0%nat, 0%nat, 9223372036854775808); ((BN TypeNameIdentifier), 0%nat, 0%nat, 16); ((BN TypeNameIdentifier), 1%nat, 0%nat, 16); ((BN TypeNameIdentifier), 2%nat, 0%nat, 16); ((BN ByteString), 0%nat, 0%nat, 16); ((BN TypeOrEnumLikeIdentifierId), 0%nat, 0%nat, 16)];
[((BS BuiltinArguments), 0%nat, 0%nat, 9223372036854775808); ((BN BuiltinArguments), 0%nat, 0%nat, 9477825553240162304); ((BN BuiltinArguments), 1%nat, 0%nat, 9477825553240162304); ((BN BuiltinArguments), 2%nat, 0%nat, 9477825553240162304); ((BN VariableIdentifier), 0%nat, 0%nat, 9477825553240162304); ((BN VariableIdentifier), 1%nat, 0%nat, 9477825553240162304); ((BN VariableIdentifier), 2%nat, 0%nat, 9477825553240162304); ((BN RegularId), 0%nat, 0%nat, 9477825553240162304); ((BN SpecialId), 0%nat, 0%nat, 9477825553240162304); ((BN TypeNameIdentifier), 0%nat, 0%nat, 16); ((BN TypeNameIdentifier), 1%nat, 0%nat, 16); ((BN TypeNameIdentifier), 2%nat, 0%nat, 16); ((BN ByteString), 0%nat, 0%nat, 16); ((BN TypeOrEnumLikeIdentifierId), 0%nat, 0%nat, 16)];
[((BS RemainingTypes), 0%nat, 0%nat, 9223372036854775808); ((BN RemainingTypes), 0%nat, 0%nat, 9223372036854775808); ((BN RemainingTypes), 1%nat, 0%nat, 9223372036854775808); ((BN RemainingTypes), 2%nat, 0%nat, 9223372036854775808); ((BN RemainingTypes), 3%nat, 0%nat, 9223372036854775808); ((BN RemainingTypes), 4%nat, 0%nat, 9223372036854775808); ((BN RemainingTypes), 5%nat, 0%nat, 9223372036854775808); ((BN RemainingTypes), 6%nat, 0%nat, 9223372036854775808); ((BN MetaIdentifier), 0%nat, 0%nat, 9668111433589588224); ((BN MetaIdentifier), 1%nat, 0%nat, 9668111433589588224); ((BN MetaIdentifier), 2%nat, 0%nat, 9668111433589588224); ((BN MetaIdentifier), 3%nat, 0%nat, 9668111433589588224); ((BN AddressType), 0%nat, 0%nat, 9223372036854775808); ((BN AddressType), 1%nat, 0%nat, 9223372036854775808); ((BN AddressType), 2%nat, 0%nat, 9223372036854775808); ((BN AddressType), 3%nat, 0%nat, 9223372036854775808); ((BN AddressType), 4%nat, 0%nat, 9223372036854775808); ((BN TemplateTypeId), 0%nat, 0%nat, 9223372036854775808); ((BN TypeNameIdentifier), 0%nat, 0%nat, 9668111434126459152); ((BN TypeNameIdentifier), 1%nat, 0%nat, 9668111434126459152); ((BN TypeNameIdentifier), 2%nat, 0%nat, 9668111434126459152); ((BN HexNumber), 0%nat, 0%nat, 16); ((BN ByteString), 0%nat, 0%nat, 9668111434126459152); ((BN TypeOrEnumLikeIdentifierId), 0%nat, 0%nat, 9668111434126459152)];
[((BS FunctionSignature), 0%nat, 0%nat, 9223372036854775808); ((BN FunctionSignature), 0%nat, 0%nat, 9223372036854775808); ((BN FunctionSignature), 1%nat, 0%nat, 9223372036854775808); ((BN RemainingTypes), 0%nat, 0%nat, 16384); ((BN RemainingTypes), 1%nat, 0%nat, 16384); ((BN RemainingTypes), 2%nat, 0%nat, 16384); ((BN RemainingTypes), 3%nat, 0%nat, 16384); ((BN RemainingTypes), 4%nat, 0%nat, 16384); ((BN RemainingTypes), 5%nat, 0%nat, 16384); ((BN RemainingTypes), 6%nat, 0%nat, 16384); ((BN MetaIdentifier), 0%nat, 0%nat, 444739396734828800); ((BN MetaIdentifier), 1%nat, 0%nat, 444739396734828800); ((BN MetaIdentifier), 2%nat, 0%nat, 444739396734828800); ((BN MetaIdentifier), 3%nat, 0%nat, 444739396734828800); ((BN AddressType), 0%nat, 0%nat, 16384); ((BN AddressType), 1%nat, 0%nat, 16384); ((BN AddressType), 2%nat, 0%nat, 16384); ((BN AddressType), 3%nat, 0%nat, 16384); ((BN AddressType), 4%nat, 0%nat, 16384); ((BN TemplateTypeId), 0%nat, 0%nat, 16384); ((BN TypeNameIdentifier), 0%nat, 0%nat, 444739397271699728); ((BN TypeNameIdentifier), 1%nat, 0%nat, 444739397271699728); ((BN TypeNameIdentifier), 2%nat, 0%nat, 444739397271699728); ((BN HexNumber), 0%nat, 0%nat, 16); ((BN ByteString), 0%nat, 0%nat, 444739397271699728); ((BN TypeOrEnumLikeIdentifierId), 0%nat, 0%nat, 444739397271699728)];
[((BS ScillaType), 0%nat, 0%nat, 9223372036854775808); ((BN ScillaType), 0%nat, 0%nat, 9223372036854775808); ((BN ScillaType), 1%nat, 0%nat, 9223372036854775808); ((BN FunctionSignature), 0%nat, 0%nat, 9223372036854775808); ((BN FunctionSignature), 1%nat, 0%nat, 9223372036854775808); ((BN RemainingTypes), 0%nat, 0%nat, 9223372036854792192); ((BN RemainingTypes), 1%nat, 0%nat, 9223372036854792192); ((BN RemainingTypes), 2%nat, 0%nat, 9223372036854792192); ((BN RemainingTypes), 3%nat, 0%nat, 9223372036854792192); ((BN RemainingTypes), 4%nat, 0%nat, 9223372036854792192); ((BN RemainingTypes), 5%nat, 0%nat, 9223372036854792192); ((BN RemainingTypes), 6%nat, 0%nat, 9223372036854792192); ((BN MetaIdentifier), 0%nat, 0%nat, 9668111433589604608); ((BN MetaIdentifier), 1%nat, 0%nat, 9668111433589604608); ((BN MetaIdentifier), 2%nat, 0%nat, 9668111433589604608); ((BN MetaIdentifier), 3%nat, 0%nat, 9668111433589604608); ((BN AddressType), 0%nat, 0%nat, 9223372036854792192); ((BN AddressType), 1%nat, 0%nat, 9223372036854792192); ((BN AddressType), 2%nat, 0%nat, 9223372036854792192); ((BN AddressType), 3%nat, 0%nat, 9223372036854792192); ((BN AddressType), 4%nat, 0%nat, 9223372036854792192); ((BN TemplateTypeId), 0%nat, 0%nat, 9223372036854792192); ((BN TypeNameIdentifier), 0%nat, 0%nat, 9668111434126475536); ((BN TypeNameIdentifier), 1%nat, 0%nat, 9668111434126475536); ((BN TypeNameIdentifier), 2%nat, 0%nat, 9668111434126475536); ((BN HexNumber), 0%nat, 0%nat, 16); ((BN ByteString), 0%nat, 0%nat, 9668111434126475536); ((BN TypeOrEnumLikeIdentifierId), 0%nat, 0%nat, 9668111434126475536)];
[((BS TypeArgument), 0%nat, 0%nat, 9223372036854775808); ((BN TypeArgument), 0%nat, 0%nat, 9223372036854775808); ((BN TypeArgument), 1%nat, 0%nat, 9223372036854775808); ((BN TypeArgument), 2%nat, 0%nat, 9223372036854775808); ((BN TypeArgument), 3%nat, 0%nat, 9223372036854775808); ((BN TypeArgument), 4%nat, 0%nat, 9223372036854775808); ((BN MetaIdentifier), 0%nat, 0%nat, 9223372036854775808); ((BN MetaIdentifier), 1%nat, 0%nat, 9223372036854775808); ((BN MetaIdentifier), 2%nat, 0%nat, 9223372036854775808); ((BN MetaIdentifier), 3%nat, 0%nat, 9223372036854775808); ((BN TemplateTypeId), 0%nat, 0%nat, 9223372036854775808); ((BN AddressType), 0%nat, 0%nat, 9223372036854775808); ((BN AddressType), 1%nat, 0%nat, 9223372036854775808); ((BN AddressType), 2%nat, 0%nat, 9223372036854775808); ((BN AddressType), 3%nat, 0%nat, 9223372036854775808); ((BN AddressType), 4%nat, 0%nat, 9223372036854775808); ((BN TypeNameIdentifier), 0%nat, 0%nat, 9223372037391646736); ((BN TypeNameIdentifier), 1%nat, 0%nat, 9223372037391646736); ((BN TypeNameIdentifier), 2%nat, 0%nat, 9223372037391646736); ((BN HexNumber), 0%nat, 0%nat, 16); ((BN ByteString), 0%nat, 0%nat, 9223372037391646736); ((BN TypeOrEnumLikeIdentifierId), 0%nat, 0%nat, 9223372037391646736)];
[((BS AddressType), 0%nat, 0%nat, 9223372036854775808); ((BN AddressType), 0%nat, 0%nat, 9223372036854775808); ((BN AddressType), 1%nat, 0%nat, 9223372036854775808); ((BN AddressType), 2%nat, 0%nat, 9223372036854775808); ((BN AddressType), 3%nat, 0%nat, 9223372036854775808); ((BN AddressType), 4%nat, 0%nat, 9223372036854775808); ((BN TypeNameIdentifier), 0%nat, 0%nat, 536870912); ((BN TypeNameIdentifier), 1%nat, 0%nat, 536870912); ((BN TypeNameIdentifier), 2%nat, 0%nat, 536870912); ((BN ByteString), 0%nat, 0%nat, 536870912); ((BN TypeOrEnumLikeIdentifierId), 0%nat, 0%nat, 536870912)];
[((BS AddressTypeFieldList), 0%nat, 0%nat, 9223372036854775808); ((BN AddressTypeFieldList), 0%nat, 0%nat, 9223372036854775808); ((BN AddressTypeFieldList), 1%nat, 0%nat, 9223372036854775808); ((BN AddressTypeField), 0%nat, 0%nat, 9223372036854779904)];
[((BS NextAddressTypeField), 0%nat, 0%nat, 9223372036854775808); ((BN NextAddressTypeField), 0%nat, 0%nat, 9223372036854775808)];
[((BS AddressTypeField), 0%nat, 0%nat, 9223372036854775808); ((BN AddressTypeField), 0%nat, 0%nat, 9223372036854775808)];
[((BS TypeMapKey), 0%nat, 0%nat, 9223372036854775808); ((BN TypeMapKey), 0%nat, 0%nat, 9223372036854775808); ((BN TypeMapKey), 1%nat, 0%nat, 9223372036854775808); ((BN TypeMapKey), 2%nat, 0%nat, 9223372036854775808); ((BN TypeMapKey), 3%nat, 0%nat, 9223372036854775808); ((BN MetaIdentifier), 0%nat, 0%nat, 9223372036854775808); ((BN MetaIdentifier), 1%nat, 0%nat, 9223372036854775808); ((BN MetaIdentifier), 2%nat, 0%nat, 9223372036854775808); ((BN MetaIdentifier), 3%nat, 0%nat, 9223372036854775808); ((BN AddressType), 0%nat, 0%nat, 9223372036854775808); ((BN AddressType), 1%nat, 0%nat, 9223372036854775808); ((BN AddressType), 2%nat, 0%nat, 9223372036854775808); ((BN AddressType), 3%nat, 0%nat, 9223372036854775808); ((BN AddressType), 4%nat, 0%nat, 9223372036854775808); ((BN TypeNameIdentifier), 0%nat, 0%nat, 9223372037391646736); ((BN TypeNameIdentifier), 1%nat, 0%nat, 9223372037391646736); ((BN TypeNameIdentifier), 2%nat, 0%nat, 9223372037391646736); ((BN HexNumber), 0%nat, 0%nat, 16); ((BN ByteString), 0%nat, 0%nat, 9223372037391646736); ((BN TypeOrEnumLikeIdentifierId), 0%nat, 0%nat, 9223372037391646736)];
[((BS TypeMapValue), 0%nat, 0%nat, 9223372036854775808); ((BN TypeMapValue), 0%nat, 0%nat, 9223372036854775808); ((BN TypeMapValue), 1%nat, 0%nat, 9223372036854775808); ((BN TypeMapValue), 2%nat, 0%nat, 9223372036854775808); ((BN TypeMapValue), 3%nat, 0%nat, 9223372036854775808); ((BN MetaIdentifier), 0%nat, 0%nat, 9223372036854775808); ((BN MetaIdentifier), 1%nat, 0%nat, 9223372036854775808); ((BN MetaIdentifier), 2%nat, 0%nat, 9223372036854775808); ((BN MetaIdentifier), 3%nat, 0%nat, 9223372036854775808); ((BN AddressType), 0%nat, 0%nat, 9223372036854775808); ((BN AddressType), 1%nat, 0%nat, 9223372036854775808); ((BN AddressType), 2%nat, 0%nat, 9223372036854775808); ((BN AddressType), 3%nat, 0%nat, 9223372036854775808); ((BN AddressType), 4%nat, 0%nat, 9223372036854775808); ((BN TypeNameIdentifier), 0%nat, 0%nat, 9223372037391646736); ((BN TypeNameIdentifier), 1%nat, 0%nat, 9223372037391646736); ((BN TypeNameIdentifier), 2%nat, 0%nat, 9223372037391646736); ((BN HexNumber), 0%nat, 0%nat, 16); ((BN ByteString), 0%nat, 0%nat, 9223372037391646736); ((BN TypeOrEnumLikeIdentifierId), 0%nat, 0%nat, 9223372037391646736)];
[((BS TypeMapValueArguments), 0%nat, 0%nat, 9223372036854775808); ((BN TypeMapValueArguments), 0%nat, 0%nat, 9223372036854775808); ((BN TypeMapValueArguments), 1%nat, 0%nat, 9223372036854775808); ((BN TypeMapValueArguments), 2%nat, 0%nat, 9223372036854775808); ((BN MetaIdentifier), 0%nat, 0%nat, 9223372036854775808); ((BN MetaIdentifier), 1%nat, 0%nat, 9223372036854775808); ((BN MetaIdentifier), 2%nat, 0%nat, 9223372036854775808); ((BN MetaIdentifier), 3%nat, 0%nat, 9223372036854775808); ((BN TypeNameIdentifier), 0%nat, 0%nat, 9223372036854775824); ((BN TypeNameIdentifier), 1%nat, 0%nat, 9223372036854775824); ((BN TypeNameIdentifier), 2%nat, 0%nat, 9223372036854775824); ((BN HexNumber), 0%nat, 0%nat, 16); ((BN ByteString), 0%nat, 0%nat, 9223372036854775824); ((BN TypeOrEnumLikeIdentifierId), 0%nat, 0%nat, 9223372036854775824)];
[((BS Program), 0%nat, 0%nat, 9223372036854775808); ((BN Program), 0%nat, 0%nat, 9223372036854775808); ((BN Program), 1%nat, 0%nat, 9223372036854775808); ((BN Program), 2%nat, 0%nat, 9223372036854775808); ((BN Program), 3%nat, 0%nat, 9223372036854775808)];
[((BS LibraryDefinition), 0%nat, 0%nat, 9223372036854775808); ((BN LibraryDefinition), 0%nat, 0%nat, 9223372036854775808); ((BN LibraryDefinition), 1%nat, 0%nat, 9223372036854775808)];
[((BS LibrarySingleDefinition), 0%nat, 0%nat, 9223372036854775808); ((BN LibrarySingleDefinition), 0%nat, 0%nat, 9223372036854775808); ((BN LibrarySingleDefinition), 1%nat, 0%nat, 9223372036854775808); ((BN LibrarySingleDefinition), 2%nat, 0%nat, 9223372036854775808); ((BN LibrarySingleDefinition), 3%nat, 0%nat, 9223372036854775808)];
[((BS TypedIdentifier), 0%nat, 0%nat, 9223372036854775808); ((BN TypedIdentifier), 0%nat, 0%nat, 9223372036854775808); ((BN RegularId), 0%nat, 0%nat, 8)];
[((BS TypeAnnotation), 0%nat, 0%nat, 9223372036854775808); ((BN TypeAnnotation), 0%nat, 0%nat, 9223372036854775808)];
[((BS TypeAlternativeClause), 0%nat, 0%nat, 9223372036854775808); ((BN TypeAlternativeClause), 0%nat, 0%nat, 9223372036854775808); ((BN TypeAlternativeClause), 1%nat, 0%nat, 9223372036854775808)];
[((BS TypeMapValueAllowingTypeArguments), 0%nat, 0%nat, 9223372036854775808); ((BN TypeMapValueAllowingTypeArguments), 0%nat, 0%nat, 9223372036854775808); ((BN TypeMapValueAllowingTypeArguments), 1%nat, 0%nat, 9223372036854775808); ((BN MetaIdentifier), 0%nat, 0%nat, 9379881057437876480); ((BN MetaIdentifier), 1%nat, 0%nat, 9379881057437876480); ((BN MetaIdentifier), 2%nat, 0%nat, 9379881057437876480); ((BN MetaIdentifier), 3%nat, 0%nat, 9379881057437876480); ((BN TypeMapValue), 0%nat, 0%nat, 9223372036854775808); ((BN TypeMapValue), 1%nat, 0%nat, 9223372036854775808); ((BN TypeMapValue), 2%nat, 0%nat, 9223372036854775808); ((BN TypeMapValue), 3%nat, 0%nat, 9223372036854775808); ((BN TypeNameIdentifier), 0%nat, 0%nat, 9379881057974747408); ((BN TypeNameIdentifier), 1%nat, 0%nat, 9379881057974747408); ((BN TypeNameIdentifier), 2%nat, 0%nat, 9379881057974747408); ((BN HexNumber), 0%nat, 0%nat, 16); ((BN AddressType), 0%nat, 0%nat, 9223372036854775808); ((BN AddressType), 1%nat, 0%nat, 9223372036854775808); ((BN AddressType), 2%nat, 0%nat, 9223372036854775808); ((BN AddressType), 3%nat, 0%nat, 9223372036854775808); ((BN AddressType), 4%nat, 0%nat, 9223372036854775808); ((BN ByteString), 0%nat, 0%nat, 9379881057974747408); ((BN TypeOrEnumLikeIdentifierId), 0%nat, 0%nat, 9379881057974747408)];
[((BS ContractTypeArguments), 0%nat, 0%nat, 9223372036854775808); ((BN ContractTypeArguments), 0%nat, 0%nat, 9223372036854775808); ((BN ContractTypeArguments), 1%nat, 0%nat, 9223372036854775808)];
[((BS FullExpression), 0%nat, 0%nat, 9223372036854775808); ((BN FullExpression), 0%nat, 0%nat, 9223372036854775808); ((BN FullExpression), 1%nat, 0%nat, 9223372036854775808); ((BN FullExpression), 2%nat, 0%nat, 9223372036854775808); ((BN FullExpression), 3%nat, 0%nat, 9223372036854775808); ((BN FullExpression), 4%nat, 0%nat, 9223372036854775808); ((BN FullExpression), 5%nat, 0%nat, 9223372036854775808); ((BN FullExpression), 6%nat, 0%nat, 9223372036854775808); ((BN FullExpression), 7%nat, 0%nat, 9223372036854775808); ((BN FullExpression), 8%nat, 0%nat, 9223372036854775808); ((BN FullExpression), 9%nat, 0%nat, 9223372036854775808); ((BN FullExpression), 10%nat, 0%nat, 9223372036854775808); ((BN FullExpression), 11%nat, 0%nat, 9223372036854775808); ((BN FullExpression), 12%nat, 0%nat, 9223372036854775808); ((BN FullExpression), 13%nat, 0%nat, 9223372036854775808); ((BN FullExpression), 14%nat, 0%nat, 9223372036854775808); ((BN FullExpression), 15%nat, 0%nat, 9223372036854775808); ((BN VariableIdentifier), 0%nat, 0%nat, 9477825553240162304); ((BN VariableIdentifier), 1%nat, 0%nat, 9477825553240162304); ((BN VariableIdentifier), 2%nat, 0%nat, 9477825553240162304); ((BN AtomicExpression), 0%nat, 0%nat, 9223372036854775808); ((BN AtomicExpression), 1%nat, 0%nat, 9223372036854775808); ((BN MetaIdentifier), 0%nat, 0%nat, 9477825553240163328); ((BN MetaIdentifier), 1%nat, 0%nat, 9477825553240163328); ((BN MetaIdentifier), 2%nat, 0%nat, 9477825553240163328); ((BN MetaIdentifier), 3%nat, 0%nat, 9477825553240163328); ((BN RegularId), 0%nat, 0%nat, 9477825553240162304); ((BN SpecialId), 0%nat, 0%nat, 9477825553240162304); ((BN TypeNameIdentifier), 0%nat, 0%nat, 9482329152867533840); ((BN TypeNameIdentifier), 1%nat, 0%nat, 9482329152867533840); ((BN TypeNameIdentifier), 2%nat, 0%nat, 9482329152867533840); ((BN ValueLiteral), 0%nat, 0%nat, 9223372036854775808); ((BN ValueLiteral), 1%nat, 0%nat, 9223372036854775808); ((BN ValueLiteral), 2%nat, 0%nat, 9223372036854775808); ((BN ValueLiteral), 3%nat, 0%nat, 9223372036854775808); ((BN HexNumber), 0%nat, 0%nat, 9223372036854775824); ((BN ByteString), 0%nat, 0%nat, 9482329152867533840); ((BN TypeOrEnumLikeIdentifierId), 0%nat, 0%nat, 9482329152867533840); ((BN StringLiteral), 0%nat, 0%nat, 9223372036854775808)];
[((BS PatternMatchExpressionClause), 0%nat, 0%nat, 9223372036854775808); ((BN PatternMatchExpressionClause), 0%nat, 0%nat, 9223372036854775808)];
[((BS Pattern), 0%nat, 0%nat, 9223372036854775808); ((BN Pattern), 0%nat, 0%nat, 9223372036854775808); ((BN Pattern), 1%nat, 0%nat, 9223372036854775808); ((BN Pattern), 2%nat, 0%nat, 9223372036854775808); ((BN Pattern), 3%nat, 0%nat, 9223372036854775808); ((BN RegularId), 0%nat, 0%nat, 9223372036854775808); ((BN MetaIdentifier), 0%nat, 0%nat, 9415901058365915392); ((BN MetaIdentifier), 1%nat, 0%nat, 9415901058365915392); ((BN MetaIdentifier), 2%nat, 0%nat, 9415901058365915392); ((BN MetaIdentifier), 3%nat, 0%nat, 9415901058365915392); ((BN TypeNameIdentifier), 0%nat, 0%nat, 9415901058365915408); ((BN TypeNameIdentifier), 1%nat, 0%nat, 9415901058365915408); ((BN TypeNameIdentifier), 2%nat, 0%nat, 9415901058365915408); ((BN HexNumber), 0%nat, 0%nat, 16); ((BN ByteString), 0%nat, 0%nat, 9415901058365915408); ((BN TypeOrEnumLikeIdentifierId), 0%nat, 0%nat, 9415901058365915408)];
[((BS ArgumentPattern), 0%nat, 0%nat, 9223372036854775808); ((BN ArgumentPattern), 0%nat, 0%nat, 9223372036854775808); ((BN ArgumentPattern), 1%nat, 0%nat, 9223372036854775808); ((BN ArgumentPattern), 2%nat, 0%nat, 9223372036854775808); ((BN ArgumentPattern), 3%nat, 0%nat, 9223372036854775808); ((BN RegularId), 0%nat, 0%nat, 9223372036854775808); ((BN MetaIdentifier), 0%nat, 0%nat, 9223372036854775808); ((BN MetaIdentifier), 1%nat, 0%nat, 9223372036854775808); ((BN MetaIdentifier), 2%nat, 0%nat, 9223372036854775808); ((BN MetaIdentifier), 3%nat, 0%nat, 9223372036854775808); ((BN TypeNameIdentifier), 0%nat, 0%nat, 9223372036854775824); ((BN TypeNameIdentifier), 1%nat, 0%nat, 9223372036854775824); ((BN TypeNameIdentifier), 2%nat, 0%nat, 9223372036854775824); ((BN HexNumber), 0%nat, 0%nat, 16); ((BN ByteString), 0%nat, 0%nat, 9223372036854775824); ((BN TypeOrEnumLikeIdentifierId), 0%nat, 0%nat, 9223372036854775824)];
[((BS NextMessageEntry), 0%nat, 0%nat, 9223372036854775808); ((BN NextMessageEntry), 0%nat, 0%nat, 9223372036854775808)];
[((BS MessageEntry), 0%nat, 0%nat, 9223372036854775808); ((BN MessageEntry), 0%nat, 0%nat, 9223372036854775808); ((BN MessageEntry), 1%nat, 0%nat, 9223372036854775808); ((BN VariableIdentifier), 0%nat, 0%nat, 8); ((BN VariableIdentifier), 1%nat, 0%nat, 8); ((BN VariableIdentifier), 2%nat, 0%nat, 8); ((BN RegularId), 0%nat, 0%nat, 8); ((BN SpecialId), 0%nat, 0%nat, 8); ((BN TypeNameIdentifier), 0%nat, 0%nat, 16); ((BN TypeNameIdentifier), 1%nat, 0%nat, 16); ((BN TypeNameIdentifier), 2%nat, 0%nat, 16); ((BN ByteString), 0%nat, 0%nat, 16); ((BN TypeOrEnumLikeIdentifierId), 0%nat, 0%nat, 16)];
[((BS AtomicExpression), 0%nat, 0%nat, 9223372036854775808); ((BN AtomicExpression), 0%nat, 0%nat, 9223372036854775808); ((BN AtomicExpression), 1%nat, 0%nat, 9223372036854775808); ((BN VariableIdentifier), 0%nat, 0%nat, 9223372036854775808); ((BN VariableIdentifier), 1%nat, 0%nat, 9223372036854775808); ((BN VariableIdentifier), 2%nat, 0%nat, 9223372036854775808); ((BN ValueLiteral), 0%nat, 0%nat, 9223372036854775808); ((BN ValueLiteral), 1%nat, 0%nat, 9223372036854775808); ((BN ValueLiteral), 2%nat, 0%nat, 9223372036854775808); ((BN ValueLiteral), 3%nat, 0%nat, 9223372036854775808); ((BN RegularId), 0%nat, 0%nat, 9223372036854775808); ((BN SpecialId), 0%nat, 0%nat, 9223372036854775808); ((BN TypeNameIdentifier), 0%nat, 0%nat, 4503599627370512); ((BN TypeNameIdentifier), 1%nat, 0%nat, 4503599627370512); ((BN TypeNameIdentifier), 2%nat, 0%nat, 4503599627370512); ((BN HexNumber), 0%nat, 0%nat, 9223372036854775808); ((BN StringLiteral), 0%nat, 0%nat, 9223372036854775808); ((BN ByteString), 0%nat, 0%nat, 4503599627370512); ((BN TypeOrEnumLikeIdentifierId), 0%nat, 0%nat, 4503599627370512)];
[((BS ValueLiteral), 0%nat, 0%nat, 9223372036854775808); ((BN ValueLiteral), 0%nat, 0%nat, 9223372036854775808); ((BN ValueLiteral), 1%nat, 0%nat, 9223372036854775808); ((BN ValueLiteral), 2%nat, 0%nat, 9223372036854775808); ((BN ValueLiteral), 3%nat, 0%nat, 9223372036854775808); ((BN TypeNameIdentifier), 0%nat, 0%nat, 4503599627370496); ((BN TypeNameIdentifier), 1%nat, 0%nat, 4503599627370496); ((BN TypeNameIdentifier), 2%nat, 0%nat, 4503599627370496); ((BN HexNumber), 0%nat, 0%nat, 9223372036854775808); ((BN StringLiteral), 0%nat, 0%nat, 9223372036854775808); ((BN ByteString), 0%nat, 0%nat, 4503599627370496); ((BN TypeOrEnumLikeIdentifierId), 0%nat, 0%nat, 4503599627370496)];
[((BS Statement), 0%nat, 0%nat, 9223372036854775808); ((BN Statement), 0%nat, 0%nat, 9223372036854775808); ((BN Statement), 1%nat, 0%nat, 9223372036854775808); ((BN Statement), 2%nat, 0%nat, 9223372036854775808); ((BN Statement), 3%nat, 0%nat, 9223372036854775808); ((BN Statement), 4%nat, 0%nat, 9223372036854775808); ((BN Statement), 5%nat, 0%nat, 9223372036854775808); ((BN Statement), 6%nat, 0%nat, 9223372036854775808); ((BN Statement), 7%nat, 0%nat, 9223372036854775808); ((BN Statement), 8%nat, 0%nat, 9223372036854775808); ((BN Statement), 9%nat, 0%nat, 9223372036854775808); ((BN Statement), 10%nat, 0%nat, 9223372036854775808); ((BN Statement), 11%nat, 0%nat, 9223372036854775808); ((BN Statement), 12%nat, 0%nat, 9223372036854775808); ((BN Statement), 13%nat, 0%nat, 9223372036854775808); ((BN Statement), 14%nat, 0%nat, 9223372036854775808); ((BN Statement), 15%nat, 0%nat, 9223372036854775808); ((BN Statement), 16%nat, 0%nat, 9223372036854775808); ((BN Statement), 17%nat, 0%nat, 9223372036854775808); ((BN Statement), 18%nat, 0%nat, 9223372036854775808); ((BN RegularId), 0%nat, 0%nat, 9477825553240588352); ((BN RemoteFetchStatement), 0%nat, 0%nat, 9223372036854775808); ((BN RemoteFetchStatement), 1%nat, 0%nat, 9223372036854775808); ((BN RemoteFetchStatement), 2%nat, 0%nat, 9223372036854775808); ((BN RemoteFetchStatement), 3%nat, 0%nat, 9223372036854775808); ((BN RemoteFetchStatement), 4%nat, 0%nat, 9223372036854775808); ((BN ComponentId), 0%nat, 0%nat, 9477825553240162304); ((BN ComponentId), 1%nat, 0%nat, 9477825553240162304); ((BN TypeNameIdentifier), 0%nat, 0%nat, 9477825553240162304); ((BN TypeNameIdentifier), 1%nat, 0%nat, 9477825553240162304); ((BN TypeNameIdentifier), 2%nat, 0%nat, 9477825553240162304); ((BN ByteString), 0%nat, 0%nat, 9477825553240162304); ((BN TypeOrEnumLikeIdentifierId), 0%nat, 0%nat, 9477825553240162304)];
[((BS NextStatement), 0%nat, 0%nat, 9223372036854775808); ((BN NextStatement), 0%nat, 0%nat, 9223372036854775808)];
[((BS StatementBlock), 0%nat, 0%nat, 9223372036854775808); ((BN StatementBlock), 0%nat, 0%nat, 9223372036854775808); ((BN StatementBlock), 1%nat, 0%nat, 9223372036854775808); ((BN Statement), 0%nat, 0%nat, 9223372036854775812); ((BN Statement), 1%nat, 0%nat, 9223372036854775812); ((BN Statement), 2%nat, 0%nat, 9223372036854775812); ((BN Statement), 3%nat, 0%nat, 9223372036854775812); ((BN Statement), 4%nat, 0%nat, 9223372036854775812); ((BN Statement), 5%nat, 0%nat, 9223372036854775812); ((BN Statement), 6%nat, 0%nat, 9223372036854775812); ((BN Statement), 7%nat, 0%nat, 9223372036854775812); ((BN Statement), 8%nat, 0%nat, 9223372036854775812); ((BN Statement), 9%nat, 0%nat, 9223372036854775812); ((BN Statement), 10%nat, 0%nat, 9223372036854775812); ((BN Statement), 11%nat, 0%nat, 9223372036854775812); ((BN Statement), 12%nat, 0%nat, 9223372036854775812); ((BN Statement), 13%nat, 0%nat, 9223372036854775812); ((BN Statement), 14%nat, 0%nat, 9223372036854775812); ((BN Statement), 15%nat, 0%nat, 9223372036854775812); ((BN Statement), 16%nat, 0%nat, 9223372036854775812); ((BN Statement), 17%nat, 0%nat, 9223372036854775812); ((BN Statement), 18%nat, 0%nat, 9223372036854775812); ((BN RegularId), 0%nat, 0%nat, 9477825553240588356); ((BN RemoteFetchStatement), 0%nat, 0%nat, 9223372036854775812); ((BN RemoteFetchStatement), 1%nat, 0%nat, 9223372036854775812); ((BN RemoteFetchStatement), 2%nat, 0%nat, 9223372036854775812); ((BN RemoteFetchStatement), 3%nat, 0%nat, 9223372036854775812); ((BN RemoteFetchStatement), 4%nat, 0%nat, 9223372036854775812); ((BN ComponentId), 0%nat, 0%nat, 9477825553240162308); ((BN ComponentId), 1%nat, 0%nat, 9477825553240162308); ((BN TypeNameIdentifier), 0%nat, 0%nat, 9477825553240162308); ((BN TypeNameIdentifier), 1%nat, 0%nat, 9477825553240162308); ((BN TypeNameIdentifier), 2%nat, 0%nat, 9477825553240162308); ((BN ByteString), 0%nat, 0%nat, 9477825553240162308); ((BN TypeOrEnumLikeIdentifierId), 0%nat, 0%nat, 9477825553240162308)];
[((BS BlockchainFetchArguments), 0%nat, 0%nat, 9223372036854775808); ((BN BlockchainFetchArguments), 0%nat, 0%nat, 9223372036854775808)];
[((BS ComponentId), 0%nat, 0%nat, 9223372036854775808); ((BN ComponentId), 0%nat, 0%nat, 9223372036854775808); ((BN ComponentId), 1%nat, 0%nat, 9223372036854775808); ((BN TypeNameIdentifier), 0%nat, 0%nat, 9223372036854775808); ((BN TypeNameIdentifier), 1%nat, 0%nat, 9223372036854775808); ((BN TypeNameIdentifier), 2%nat, 0%nat, 9223372036854775808); ((BN RegularId), 0%nat, 0%nat, 9223372036854775808); ((BN ByteString), 0%nat, 0%nat, 9223372036854775808); ((BN TypeOrEnumLikeIdentifierId), 0%nat, 0%nat, 9223372036854775808)];
[((BS PatternMatchClause), 0%nat, 0%nat, 9223372036854775808); ((BN PatternMatchClause), 0%nat, 0%nat, 9223372036854775808); ((BN PatternMatchClause), 1%nat, 0%nat, 9223372036854775808)];
[((BS RemoteFetchStatement), 0%nat, 0%nat, 9223372036854775808); ((BN RemoteFetchStatement), 0%nat, 0%nat, 9223372036854775808); ((BN RemoteFetchStatement), 1%nat, 0%nat, 9223372036854775808); ((BN RemoteFetchStatement), 2%nat, 0%nat, 9223372036854775808); ((BN RemoteFetchStatement), 3%nat, 0%nat, 9223372036854775808); ((BN RemoteFetchStatement), 4%nat, 0%nat, 9223372036854775808); ((BN RegularId), 0%nat, 0%nat, 131072)];
[((BS MapAccess), 0%nat, 0%nat, 9223372036854775808); ((BN MapAccess), 0%nat, 0%nat, 9223372036854775808)];
[((BS ParameterPair), 0%nat, 0%nat, 9223372036854775808); ((BN ParameterPair), 0%nat, 0%nat, 9223372036854775808); ((BN TypedIdentifier), 0%nat, 0%nat, 9223372036854775808); ((BN RegularId), 0%nat, 0%nat, 8)];
[((BS NextParameterPair), 0%nat, 0%nat, 9223372036854775808); ((BN NextParameterPair), 0%nat, 0%nat, 9223372036854775808)];
[((BS ComponentParameters), 0%nat, 0%nat, 9223372036854775808); ((BN ComponentParameters), 0%nat, 0%nat, 9223372036854775808); ((BN ComponentParameters), 1%nat, 0%nat, 9223372036854775808); ((BN ComponentParameters), 2%nat, 0%nat, 9223372036854775808); ((BN ComponentParameters), 3%nat, 0%nat, 9223372036854775808)];
[((BS ComponentDefinition), 0%nat, 0%nat, 9223372036854775808); ((BN ComponentDefinition), 0%nat, 0%nat, 9223372036854775808); ((BN ComponentDefinition), 1%nat, 0%nat, 9223372036854775808); ((BN TransitionDefinition), 0%nat, 0%nat, 9223372036854775808); ((BN ProcedureDefinition), 0%nat, 0%nat, 9223372036854775808)];
[((BS TransitionDefinition), 0%nat, 0%nat, 9223372036854775808); ((BN TransitionDefinition), 0%nat, 0%nat, 9223372036854775808)];
[((BS ProcedureDefinition), 0%nat, 0%nat, 9223372036854775808); ((BN ProcedureDefinition), 0%nat, 0%nat, 9223372036854775808)];
[((BS ComponentBody), 0%nat, 0%nat, 9223372036854775808); ((BN ComponentBody), 0%nat, 0%nat, 9223372036854775808); ((BN ComponentBody), 1%nat, 0%nat, 9223372036854775808); ((BN StatementBlock), 0%nat, 0%nat, 1073741824); ((BN StatementBlock), 1%nat, 0%nat, 1073741824); ((BN Statement), 0%nat, 0%nat, 1073741828); ((BN Statement), 1%nat, 0%nat, 1073741828); ((BN Statement), 2%nat, 0%nat, 1073741828); ((BN Statement), 3%nat, 0%nat, 1073741828); ((BN Statement), 4%nat, 0%nat, 1073741828); ((BN Statement), 5%nat, 0%nat, 1073741828); ((BN Statement), 6%nat, 0%nat, 1073741828); ((BN Statement), 7%nat, 0%nat, 1073741828); ((BN Statement), 8%nat, 0%nat, 1073741828); ((BN Statement), 9%nat, 0%nat, 1073741828); ((BN Statement), 10%nat, 0%nat, 1073741828); ((BN Statement), 11%nat, 0%nat, 1073741828); ((BN Statement), 12%nat, 0%nat, 1073741828); ((BN Statement), 13%nat, 0%nat, 1073741828); ((BN Statement), 14%nat, 0%nat, 1073741828); ((BN Statement), 15%nat, 0%nat, 1073741828); ((BN Statement), 16%nat, 0%nat, 1073741828); ((BN Statement), 17%nat, 0%nat, 1073741828); ((BN Statement), 18%nat, 0%nat, 1073741828); ((BN RegularId), 0%nat, 0%nat, 254453517459554372); ((BN RemoteFetchStatement), 0%nat, 0%nat, 1073741828); ((BN RemoteFetchStatement), 1%nat, 0%nat, 1073741828); ((BN RemoteFetchStatement), 2%nat, 0%nat, 1073741828); ((BN RemoteFetchStatement), 3%nat, 0%nat, 1073741828); ((BN RemoteFetchStatement), 4%nat, 0%nat, 1073741828); ((BN ComponentId), 0%nat, 0%nat, 254453517459128324); ((BN ComponentId), 1%nat, 0%nat, 254453517459128324); ((BN TypeNameIdentifier), 0%nat, 0%nat, 254453517459128324); ((BN TypeNameIdentifier), 1%nat, 0%nat, 254453517459128324); ((BN TypeNameIdentifier), 2%nat, 0%nat, 254453517459128324); ((BN ByteString), 0%nat, 0%nat, 254453517459128324); ((BN TypeOrEnumLikeIdentifierId), 0%nat, 0%nat, 254453517459128324)];
[((BS ContractDefinition), 0%nat, 0%nat, 9223372036854775808); ((BN ContractDefinition), 0%nat, 0%nat, 9223372036854775808); ((BN ContractDefinition), 1%nat, 0%nat, 9223372036854775808); ((BN ContractDefinition), 2%nat, 0%nat, 9223372036854775808); ((BN ContractDefinition), 3%nat, 0%nat, 9223372036854775808); ((BN ContractDefinition), 4%nat, 0%nat, 9223372036854775808); ((BN ContractDefinition), 5%nat, 0%nat, 9223372036854775808); ((BN ContractDefinition), 6%nat, 0%nat, 9223372036854775808); ((BN ContractDefinition), 7%nat, 0%nat, 9223372036854775808)];
[((BS ContractField), 0%nat, 0%nat, 9223372036854775808); ((BN ContractField), 0%nat, 0%nat, 9223372036854775808)];
[((BS WithConstraint), 0%nat, 0%nat, 9223372036854775808); ((BN WithConstraint), 0%nat, 0%nat, 9223372036854775808)];
[((BS HexNumber), 0%nat, 0%nat, 9223372036854775808); ((BN HexNumber), 0%nat, 0%nat, 9223372036854775808)];
[((BS SignedInteger), 0%nat, 0%nat, 9223372036854775808); ((BN SignedInteger), 0%nat, 0%nat, 9223372036854775808)];
[((BS RegularId), 0%nat, 0%nat, 9223372036854775808); ((BN RegularId), 0%nat, 0%nat, 9223372036854775808)];
[((BS SpecialId), 0%nat, 0%nat, 9223372036854775808); ((BN SpecialId), 0%nat, 0%nat, 9223372036854775808)];
[((BS TypeOrEnumLikeIdentifierId), 0%nat, 0%nat, 9223372036854775808); ((BN TypeOrEnumLikeIdentifierId), 0%nat, 0%nat, 9223372036854775808)];
[((BS TemplateTypeId), 0%nat, 0%nat, 9223372036854775808); ((BN TemplateTypeId), 0%nat, 0%nat, 9223372036854775808)];
[((BS StringLiteral), 0%nat, 0%nat, 9223372036854775808); ((BN StringLiteral), 0%nat, 0%nat, 9223372036854775808)];
[((BS ByteString), 0%nat, 1%nat, 9223372036854775808)];
[((BN ByteString), 0%nat, 1%nat, 9781229492367327028)];
[((BS TypeNameIdentifier), 0%nat, 1%nat, 9223372036854775808)];
[((BN TypeNameIdentifier), 0%nat, 1%nat, 9781229492367327028)];
[((BN TypeNameIdentifier), 1%nat, 1%nat, 9781229492367327028)];
[((BN TypeNameIdentifier), 2%nat, 1%nat, 9781229492367327028)];
[((BN TypeOrEnumLikeIdentifierId), 0%nat, 1%nat, 9781229492367327028)];
[((BS ImportedName), 0%nat, 1%nat, 9223372036854775808)];
[((BN ImportedName), 0%nat, 1%nat, 9369739170823536640); ((BN ImportedName), 1%nat, 1%nat, 9369739170823536640)];
[((BN ImportDeclarations), 0%nat, 1%nat, 9223372036888330240); ((BS ImportDeclarations), 0%nat, 1%nat, 9223372036854775808)];
[((BN ImportDeclarations), 1%nat, 1%nat, 9223372045495042048); ((BP (Nt ImportedName)), 0%nat, 0%nat, 9369739170823536640); ((BP (Nt ImportedName)), 1%nat, 0%nat, 9369739170823536640); ((BN ImportedName), 0%nat, 0%nat, 9369739170823536640); ((BN ImportedName), 1%nat, 0%nat, 9369739170823536640); ((BN TypeNameIdentifier), 0%nat, 0%nat, 9369879908311891968); ((BN TypeNameIdentifier), 1%nat, 0%nat, 9369879908311891968); ((BN TypeNameIdentifier), 2%nat, 0%nat, 9369879908311891968); ((BN ByteString), 0%nat, 0%nat, 9369879908311891968); ((BN TypeOrEnumLikeIdentifierId), 0%nat, 0%nat, 9369879908311891968)];
[((BS MetaIdentifier), 0%nat, 1%nat, 9223372036854775808)];
[((BN MetaIdentifier), 0%nat, 1%nat, 9415909854458946304); ((BN MetaIdentifier), 1%nat, 1%nat, 9415909854458946304)];
[((BN MetaIdentifier), 2%nat, 1%nat, 9704457191882292004)];
[((BN MetaIdentifier), 3%nat, 1%nat, 9776514785920220964)];
[((BN HexNumber), 0%nat, 1%nat, 9223688998126364724)];
[((BS VariableIdentifier), 0%nat, 1%nat, 9223372036854775808)];
[((BN VariableIdentifier), 0%nat, 1%nat, 9776514786454940588)];
[((BN VariableIdentifier), 1%nat, 1%nat, 9776514786454940588)];
[((BN VariableIdentifier), 2%nat, 1%nat, 9776655523943293868)];
[((BN RegularId), 0%nat, 1%nat, 9776655523945820156)];
[((BN SpecialId), 0%nat, 1%nat, 9776655523943295932)];
[((BN BuiltinArguments), 0%nat, 1%nat, 9477825553240162304); ((BS BuiltinArguments), 0%nat, 1%nat, 9223372036854775808); ((BN VariableIdentifier), 0%nat, 0%nat, 9477825553240162304); ((BN VariableIdentifier), 1%nat, 0%nat, 9477825553240162304); ((BN VariableIdentifier), 2%nat, 0%nat, 9477825553240162304); ((BN RegularId), 0%nat, 0%nat, 9477825553240162304); ((BN SpecialId), 0%nat, 0%nat, 9477825553240162304); ((BN TypeNameIdentifier), 0%nat, 0%nat, 16); ((BN TypeNameIdentifier), 1%nat, 0%nat, 16); ((BN TypeNameIdentifier), 2%nat, 0%nat, 16); ((BN ByteString), 0%nat, 0%nat, 16); ((BN TypeOrEnumLikeIdentifierId), 0%nat, 0%nat, 16)];
[((BN BuiltinArguments), 1%nat, 1%nat, 9478142514511749156)];
[((BN BuiltinArguments), 2%nat, 1%nat, 9478142514511749156)];
[((BS RemainingTypes), 0%nat, 1%nat, 9223372036854775808)];
[((BN RemainingTypes), 0%nat, 1%nat, 9223372037928571392); ((BN RemainingTypes), 1%nat, 1%nat, 9223372037928571392); ((BP (Nt TypeArgument)), 0%nat, 0%nat, 9668111434663383808); ((BP (Nt TypeArgument)), 1%nat, 0%nat, 9668111434663383808); ((BN TypeArgument), 0%nat, 0%nat, 9668111434663383808); ((BN TypeArgument), 1%nat, 0%nat, 9668111434663383808); ((BN TypeArgument), 2%nat, 0%nat, 9668111434663383808); ((BN TypeArgument), 3%nat, 0%nat, 9668111434663383808); ((BN TypeArgument), 4%nat, 0%nat, 9668111434663383808); ((BN MetaIdentifier), 0%nat, 0%nat, 9668111434663383808); ((BN MetaIdentifier), 1%nat, 0%nat, 9668111434663383808); ((BN MetaIdentifier), 2%nat, 0%nat, 9668111434663383808); ((BN MetaIdentifier), 3%nat, 0%nat, 9668111434663383808); ((BN TemplateTypeId), 0%nat, 0%nat, 9668111434663383808); ((BN AddressType), 0%nat, 0%nat, 9668111434663383808); ((BN AddressType), 1%nat, 0%nat, 9668111434663383808); ((BN AddressType), 2%nat, 0%nat, 9668111434663383808); ((BN AddressType), 3%nat, 0%nat, 9668111434663383808); ((BN AddressType), 4%nat, 0%nat, 9668111434663383808); ((BN TypeNameIdentifier), 0%nat, 0%nat, 9668111435200254736); ((BN TypeNameIdentifier), 1%nat, 0%nat, 9668111435200254736); ((BN TypeNameIdentifier), 2%nat, 0%nat, 9668111435200254736); ((BN HexNumber), 0%nat, 0%nat, 16); ((BN ByteString), 0%nat, 0%nat, 9668111435200254736); ((BN TypeOrEnumLikeIdentifierId), 0%nat, 0%nat, 9668111435200254736)];
[((BN RemainingTypes), 2%nat, 1%nat, 9223372037928571392); ((BN TypeMapKey), 0%nat, 0%nat, 156509020583100672); ((BN TypeMapKey), 1%nat, 0%nat, 156509020583100672); ((BN TypeMapKey), 2%nat, 0%nat, 156509020583100672); ((BN TypeMapKey), 3%nat, 0%nat, 156509020583100672); ((BN MetaIdentifier), 0%nat, 0%nat, 156509020583100672); ((BN MetaIdentifier), 1%nat, 0%nat, 156509020583100672); ((BN MetaIdentifier), 2%nat, 0%nat, 156509020583100672); ((BN MetaIdentifier), 3%nat, 0%nat, 156509020583100672); ((BN AddressType), 0%nat, 0%nat, 156509020583100672); ((BN AddressType), 1%nat, 0%nat, 156509020583100672); ((BN AddressType), 2%nat, 0%nat, 156509020583100672); ((BN AddressType), 3%nat, 0%nat, 156509020583100672); ((BN AddressType), 4%nat, 0%nat, 156509020583100672); ((BN TypeNameIdentifier), 0%nat, 0%nat, 156509021119971600); ((BN TypeNameIdentifier), 1%nat, 0%nat, 156509021119971600); ((BN TypeNameIdentifier), 2%nat, 0%nat, 156509021119971600); ((BN HexNumber), 0%nat, 0%nat, 16); ((BN ByteString), 0%nat, 0%nat, 156509021119971600); ((BN TypeOrEnumLikeIdentifierId), 0%nat, 0%nat, 156509021119971600)];
[((BN RemainingTypes), 3%nat, 1%nat, 9223372037928571392); ((BN ScillaType), 0%nat, 0%nat, 512); ((BN ScillaType), 1%nat, 0%nat, 512); ((BN FunctionSignature), 0%nat, 0%nat, 512); ((BN FunctionSignature), 1%nat, 0%nat, 512); ((BN RemainingTypes), 0%nat, 0%nat, 16896); ((BN RemainingTypes), 1%nat, 0%nat, 16896); ((BN RemainingTypes), 2%nat, 0%nat, 16896); ((BN RemainingTypes), 3%nat, 0%nat, 16896); ((BN RemainingTypes), 4%nat, 0%nat, 16896); ((BN RemainingTypes), 5%nat, 0%nat, 16896); ((BN RemainingTypes), 6%nat, 0%nat, 16896); ((BN MetaIdentifier), 0%nat, 0%nat, 444739396734829312); ((BN MetaIdentifier), 1%nat, 0%nat, 444739396734829312); ((BN MetaIdentifier), 2%nat, 0%nat, 444739396734829312); ((BN MetaIdentifier), 3%nat, 0%nat, 444739396734829312); ((BN AddressType), 0%nat, 0%nat, 16896); ((BN AddressType), 1%nat, 0%nat, 16896); ((BN AddressType), 2%nat, 0%nat, 16896); ((BN AddressType), 3%nat, 0%nat, 16896); ((BN AddressType), 4%nat, 0%nat, 16896); ((BN TemplateTypeId), 0%nat, 0%nat, 16896); ((BN TypeNameIdentifier), 0%nat, 0%nat, 444739397271700240); ((BN TypeNameIdentifier), 1%nat, 0%nat, 444739397271700240); ((BN TypeNameIdentifier), 2%nat, 0%nat, 444739397271700240); ((BN HexNumber), 0%nat, 0%nat, 16); ((BN ByteString), 0%nat, 0%nat, 444739397271700240); ((BN TypeOrEnumLikeIdentifierId), 0%nat, 0%nat, 444739397271700240)];
[((BN RemainingTypes), 4%nat, 1%nat, 9223372037928571392)];
[((BN RemainingTypes), 5%nat, 1%nat, 9223372037928571392); ((BN TemplateTypeId), 0%nat, 0%nat, 16)];
[((BN RemainingTypes), 6%nat, 1%nat, 9223372037928571392)];
[((BN MetaIdentifier), 0%nat, 1%nat, 9668428394861230884); ((BN MetaIdentifier), 1%nat, 1%nat, 9668428394861230884); ((BN AddressType), 0%nat, 1%nat, 9668428394861230884); ((BN AddressType), 1%nat, 1%nat, 9668428394861230884); ((BN AddressType), 2%nat, 1%nat, 9668428394861230884); ((BN AddressType), 3%nat, 1%nat, 9668428394861230884); ((BN AddressType), 4%nat, 1%nat, 9668428394861230884)];
[((BN TemplateTypeId), 0%nat, 1%nat, 9668428394861230900)];
[((BS FunctionSignature), 0%nat, 1%nat, 9223372036854775808)];
[((BN FunctionSignature), 0%nat, 1%nat, 9223372036854775808); ((BN FunctionSignature), 1%nat, 1%nat, 9223372036854775808)];
[((BS ScillaType), 0%nat, 1%nat, 9223372036854775808)];
[((BN ScillaType), 0%nat, 1%nat, 9223372037928555008)];
[((BN FunctionSignature), 0%nat, 1%nat, 9223372037928555008); ((BN FunctionSignature), 1%nat, 1%nat, 9223372037928555008); ((BN ScillaType), 1%nat, 1%nat, 9223372037928555008)];
[((BS TypeArgument), 0%nat, 1%nat, 9223372036854775808)];
[((BN TypeArgument), 0%nat, 1%nat, 9668428394861230884); ((BN ScillaType), 0%nat, 0%nat, 512); ((BN ScillaType), 1%nat, 0%nat, 512); ((BN FunctionSignature), 0%nat, 0%nat, 512); ((BN FunctionSignature), 1%nat, 0%nat, 512); ((BN RemainingTypes), 0%nat, 0%nat, 16896); ((BN RemainingTypes), 1%nat, 0%nat, 16896); ((BN RemainingTypes), 2%nat, 0%nat, 16896); ((BN RemainingTypes), 3%nat, 0%nat, 16896); ((BN RemainingTypes), 4%nat, 0%nat, 16896); ((BN RemainingTypes), 5%nat, 0%nat, 16896); ((BN RemainingTypes), 6%nat, 0%nat, 16896); ((BN MetaIdentifier), 0%nat, 0%nat, 444739396734829312); ((BN MetaIdentifier), 1%nat, 0%nat, 444739396734829312); ((BN MetaIdentifier), 2%nat, 0%nat, 444739396734829312); ((BN MetaIdentifier), 3%nat, 0%nat, 444739396734829312); ((BN AddressType), 0%nat, 0%nat, 16896); ((BN AddressType), 1%nat, 0%nat, 16896); ((BN AddressType), 2%nat, 0%nat, 16896); ((BN AddressType), 3%nat, 0%nat, 16896); ((BN AddressType), 4%nat, 0%nat, 16896); ((BN TemplateTypeId), 0%nat, 0%nat, 16896); ((BN TypeNameIdentifier), 0%nat, 0%nat, 444739397271700240); ((BN TypeNameIdentifier), 1%nat, 0%nat, 444739397271700240); ((BN TypeNameIdentifier), 2%nat, 0%nat, 444739397271700240); ((BN HexNumber), 0%nat, 0%nat, 16); ((BN ByteString), 0%nat, 0%nat, 444739397271700240); ((BN TypeOrEnumLikeIdentifierId), 0%nat, 0%nat, 444739397271700240)];
[((BN TypeArgument), 1%nat, 1%nat, 9668428394861230884)];
[((BN TypeArgument), 2%nat, 1%nat, 9668428394861230884)];
[((BN TypeArgument), 3%nat, 1%nat, 9668428394861230884)];
[((BN TypeArgument), 4%nat, 1%nat, 9668428394861230884); ((BN TypeMapKey), 0%nat, 0%nat, 156509020583100672); ((BN TypeMapKey), 1%nat, 0%nat, 156509020583100672); ((BN TypeMapKey), 2%nat, 0%nat, 156509020583100672); ((BN TypeMapKey), 3%nat, 0%nat, 156509020583100672); ((BN MetaIdentifier), 0%nat, 0%nat, 156509020583100672); ((BN MetaIdentifier), 1%nat, 0%nat, 156509020583100672); ((BN MetaIdentifier), 2%nat, 0%nat, 156509020583100672); ((BN MetaIdentifier), 3%nat, 0%nat, 156509020583100672); ((BN AddressType), 0%nat, 0%nat, 156509020583100672); ((BN AddressType), 1%nat, 0%nat, 156509020583100672); ((BN AddressType), 2%nat, 0%nat, 156509020583100672); ((BN AddressType), 3%nat, 0%nat, 156509020583100672); ((BN AddressType), 4%nat, 0%nat, 156509020583100672); ((BN TypeNameIdentifier), 0%nat, 0%nat, 156509021119971600); ((BN TypeNameIdentifier), 1%nat, 0%nat, 156509021119971600); ((BN TypeNameIdentifier), 2%nat, 0%nat, 156509021119971600); ((BN HexNumber), 0%nat, 0%nat, 16); ((BN ByteString), 0%nat, 0%nat, 156509021119971600); ((BN TypeOrEnumLikeIdentifierId), 0%nat, 0%nat, 156509021119971600)];
[((BS AddressType), 0%nat, 1%nat, 9223372036854775808)];
[((BN AddressType), 0%nat, 1%nat, 9223372037928517668); ((BN AddressType), 1%nat, 1%nat, 9223372037928517668); ((BN AddressType), 2%nat, 1%nat, 9223372037928517668); ((BN AddressType), 3%nat, 1%nat, 9223372037928517668); ((BN AddressType), 4%nat, 1%nat, 9223372037928517668)];
[((BS AddressTypeFieldList), 0%nat, 1%nat, 9223372036854775808)];
[((BN AddressTypeFieldList), 0%nat, 1%nat, 9223372037928517632); ((BN AddressTypeFieldList), 1%nat, 1%nat, 9223372037928517632); ((BP (Nt NextAddressTypeField)), 0%nat, 0%nat, 9223372037928521728); ((BP (Nt NextAddressTypeField)), 1%nat, 0%nat, 9223372037928521728); ((BN NextAddressTypeField), 0%nat, 0%nat, 9223372037928521728)];
[((BN AddressTypeField), 0%nat, 1%nat, 9223372037928521728); ((BN VariableIdentifier), 0%nat, 0%nat, 8); ((BN VariableIdentifier), 1%nat, 0%nat, 8); ((BN VariableIdentifier), 2%nat, 0%nat, 8); ((BN RegularId), 0%nat, 0%nat, 8); ((BN SpecialId), 0%nat, 0%nat, 8); ((BN TypeNameIdentifier), 0%nat, 0%nat, 16); ((BN TypeNameIdentifier), 1%nat, 0%nat, 16); ((BN TypeNameIdentifier), 2%nat, 0%nat, 16); ((BN ByteString), 0%nat, 0%nat, 16); ((BN TypeOrEnumLikeIdentifierId), 0%nat, 0%nat, 16)];
[((BS NextAddressTypeField), 0%nat, 1%nat, 9223372036854775808)];
[((BN NextAddressTypeField), 0%nat, 1%nat, 9223372037928521728); ((BN AddressTypeField), 0%nat, 0%nat, 9223372037928521728)];
[((BS AddressTypeField), 0%nat, 1%nat, 9223372036854775808)];
[((BS TypeMapKey), 0%nat, 1%nat, 9223372036854775808)];
[((BN TypeMapKey), 0%nat, 1%nat, 9379881057437876480)];
[((BN TypeMapKey), 1%nat, 1%nat, 9379881057437876480); ((BN TypeMapKey), 2%nat, 1%nat, 9379881057437876480); ((BN MetaIdentifier), 0%nat, 0%nat, 512); ((BN MetaIdentifier), 1%nat, 0%nat, 512); ((BN MetaIdentifier), 2%nat, 0%nat, 512); ((BN MetaIdentifier), 3%nat, 0%nat, 512); ((BN AddressType), 0%nat, 0%nat, 512); ((BN AddressType), 1%nat, 0%nat, 512); ((BN AddressType), 2%nat, 0%nat, 512); ((BN AddressType), 3%nat, 0%nat, 512); ((BN AddressType), 4%nat, 0%nat, 512); ((BN TypeNameIdentifier), 0%nat, 0%nat, 536871440); ((BN TypeNameIdentifier), 1%nat, 0%nat, 536871440); ((BN TypeNameIdentifier), 2%nat, 0%nat, 536871440); ((BN HexNumber), 0%nat, 0%nat, 16); ((BN ByteString), 0%nat, 0%nat, 536871440); ((BN TypeOrEnumLikeIdentifierId), 0%nat, 0%nat, 536871440)];
[((BN TypeMapKey), 3%nat, 1%nat, 9379881057437876480)];
[((BS TypeMapValue), 0%nat, 1%nat, 9223372036854775808)];
[((BN TypeMapValue), 0%nat, 1%nat, 9668428394861230884)];
[((BN TypeMapValue), 1%nat, 1%nat, 9668428394861230884); ((BN TypeMapKey), 0%nat, 0%nat, 156509020583100672); ((BN TypeMapKey), 1%nat, 0%nat, 156509020583100672); ((BN TypeMapKey), 2%nat, 0%nat, 156509020583100672); ((BN TypeMapKey), 3%nat, 0%nat, 156509020583100672); ((BN MetaIdentifier), 0%nat, 0%nat, 156509020583100672); ((BN MetaIdentifier), 1%nat, 0%nat, 156509020583100672); ((BN MetaIdentifier), 2%nat, 0%nat, 156509020583100672); ((BN MetaIdentifier), 3%nat, 0%nat, 156509020583100672); ((BN AddressType), 0%nat, 0%nat, 156509020583100672); ((BN AddressType), 1%nat, 0%nat, 156509020583100672); ((BN AddressType), 2%nat, 0%nat, 156509020583100672); ((BN AddressType), 3%nat, 0%nat, 156509020583100672); ((BN AddressType), 4%nat, 0%nat, 156509020583100672); ((BN TypeNameIdentifier), 0%nat, 0%nat, 156509021119971600); ((BN TypeNameIdentifier), 1%nat, 0%nat, 156509021119971600); ((BN TypeNameIdentifier), 2%nat, 0%nat, 156509021119971600); ((BN HexNumber), 0%nat, 0%nat, 16); ((BN ByteString), 0%nat, 0%nat, 156509021119971600); ((BN TypeOrEnumLikeIdentifierId), 0%nat, 0%nat, 156509021119971600)];
[((BN TypeMapValue), 2%nat, 1%nat, 9668428394861230884); ((BN TypeMapValueAllowingTypeArguments), 0%nat, 0%nat, 512); ((BN TypeMapValueAllowingTypeArguments), 1%nat, 0%nat, 512); ((BN MetaIdentifier), 0%nat, 0%nat, 156509020583101184); ((BN MetaIdentifier), 1%nat, 0%nat, 156509020583101184); ((BN MetaIdentifier), 2%nat, 0%nat, 156509020583101184); ((BN MetaIdentifier), 3%nat, 0%nat, 156509020583101184); ((BN TypeMapValue), 0%nat, 0%nat, 512); ((BN TypeMapValue), 1%nat, 0%nat, 512); ((BN TypeMapValue), 2%nat, 0%nat, 512); ((BN TypeMapValue), 3%nat, 0%nat, 512); ((BN TypeNameIdentifier), 0%nat, 0%nat, 156509021119972112); ((BN TypeNameIdentifier), 1%nat, 0%nat, 156509021119972112); ((BN TypeNameIdentifier), 2%nat, 0%nat, 156509021119972112); ((BN HexNumber), 0%nat, 0%nat, 16); ((BN AddressType), 0%nat, 0%nat, 512); ((BN AddressType), 1%nat, 0%nat, 512); ((BN AddressType), 2%nat, 0%nat, 512); ((BN AddressType), 3%nat, 0%nat, 512); ((BN AddressType), 4%nat, 0%nat, 512); ((BN ByteString), 0%nat, 0%nat, 156509021119972112); ((BN TypeOrEnumLikeIdentifierId), 0%nat, 0%nat, 156509021119972112)];
[((BN TypeMapValue), 3%nat, 1%nat, 9668428394861230884)];
[((BS TypeMapValueArguments), 0%nat, 1%nat, 9223372036854775808)];
[((BN TypeMapValueArguments), 0%nat, 1%nat, 9379881057437876992); ((BN TypeMapValueAllowingTypeArguments), 0%nat, 0%nat, 512); ((BN TypeMapValueAllowingTypeArguments), 1%nat, 0%nat, 512); ((BN MetaIdentifier), 0%nat, 0%nat, 156509020583101184); ((BN MetaIdentifier), 1%nat, 0%nat, 156509020583101184); ((BN MetaIdentifier), 2%nat, 0%nat, 156509020583101184); ((BN MetaIdentifier), 3%nat, 0%nat, 156509020583101184); ((BN TypeMapValue), 0%nat, 0%nat, 512); ((BN TypeMapValue), 1%nat, 0%nat, 512); ((BN TypeMapValue), 2%nat, 0%nat, 512); ((BN TypeMapValue), 3%nat, 0%nat, 512); ((BN TypeNameIdentifier), 0%nat, 0%nat, 156509021119972112); ((BN TypeNameIdentifier), 1%nat, 0%nat, 156509021119972112); ((BN TypeNameIdentifier), 2%nat, 0%nat, 156509021119972112); ((BN HexNumber), 0%nat, 0%nat, 16); ((BN AddressType), 0%nat, 0%nat, 512); ((BN AddressType), 1%nat, 0%nat, 512); ((BN AddressType), 2%nat, 0%nat, 512); ((BN AddressType), 3%nat, 0%nat, 512); ((BN AddressType), 4%nat, 0%nat, 512); ((BN ByteString), 0%nat, 0%nat, 156509021119972112); ((BN TypeOrEnumLikeIdentifierId), 0%nat, 0%nat, 156509021119972112)];
[((BN TypeMapValueArguments), 1%nat, 1%nat, 9379881057437876992)];
[((BN TypeMapValueArguments), 2%nat, 1%nat, 9379881057437876992); ((BN TypeMapKey), 0%nat, 0%nat, 156509020583100672); ((BN TypeMapKey), 1%nat, 0%nat, 156509020583100672); ((BN TypeMapKey), 2%nat, 0%nat, 156509020583100672); ((BN TypeMapKey), 3%nat, 0%nat, 156509020583100672); ((BN MetaIdentifier), 0%nat, 0%nat, 156509020583100672); ((BN MetaIdentifier), 1%nat, 0%nat, 156509020583100672); ((BN MetaIdentifier), 2%nat, 0%nat, 156509020583100672); ((BN MetaIdentifier), 3%nat, 0%nat, 156509020583100672); ((BN AddressType), 0%nat, 0%nat, 156509020583100672); ((BN AddressType), 1%nat, 0%nat, 156509020583100672); ((BN AddressType), 2%nat, 0%nat, 156509020583100672); ((BN AddressType), 3%nat, 0%nat, 156509020583100672); ((BN AddressType), 4%nat, 0%nat, 156509020583100672); ((BN TypeNameIdentifier), 0%nat, 0%nat, 156509021119971600); ((BN TypeNameIdentifier), 1%nat, 0%nat, 156509021119971600); ((BN TypeNameIdentifier), 2%nat, 0%nat, 156509021119971600); ((BN HexNumber), 0%nat, 0%nat, 16); ((BN ByteString), 0%nat, 0%nat, 156509021119971600); ((BN TypeOrEnumLikeIdentifierId), 0%nat, 0%nat, 156509021119971600)];
[((BS Program), 0%nat, 1%nat, 9223372036854775808)];
[((BN Program), 0%nat, 1%nat, 9223372036854775808); ((BN Program), 1%nat, 1%nat, 9223372036854775808); ((BN Program), 2%nat, 1%nat, 9223372036854775808); ((BN Program), 3%nat, 1%nat, 9223372036854775808); ((BN SignedInteger), 0%nat, 0%nat, 8640266240)];
[((BS LibraryDefinition), 0%nat, 1%nat, 9223372036854775808)];
[((BN LibraryDefinition), 0%nat, 1%nat, 9223372045444710400); ((BN LibraryDefinition), 1%nat, 1%nat, 9223372045444710400); ((BN TypeNameIdentifier), 0%nat, 0%nat, 9223407229883908096); ((BN TypeNameIdentifier), 1%nat, 0%nat, 9223407229883908096); ((BN TypeNameIdentifier), 2%nat, 0%nat, 9223407229883908096); ((BN ByteString), 0%nat, 0%nat, 9223407229883908096); ((BN TypeOrEnumLikeIdentifierId), 0%nat, 0%nat, 9223407229883908096)];
[((BS LibrarySingleDefinition), 0%nat, 1%nat, 9223372036854775808)];
[((BN LibrarySingleDefinition), 0%nat, 1%nat, 9223407229883908096); ((BN LibrarySingleDefinition), 1%nat, 1%nat, 9223407229883908096); ((BN RegularId), 0%nat, 0%nat, 32776)];
[((BN LibrarySingleDefinition), 2%nat, 1%nat, 9223407229883908096); ((BN LibrarySingleDefinition), 3%nat, 1%nat, 9223407229883908096); ((BN TypeNameIdentifier), 0%nat, 0%nat, 9223407229883940864); ((BN TypeNameIdentifier), 1%nat, 0%nat, 9223407229883940864); ((BN TypeNameIdentifier), 2%nat, 0%nat, 9223407229883940864); ((BN ByteString), 0%nat, 0%nat, 9223407229883940864); ((BN TypeOrEnumLikeIdentifierId), 0%nat, 0%nat, 9223407229883940864)];
[((BS TypedIdentifier), 0%nat, 1%nat, 9223372036854775808)];
[((BN TypedIdentifier), 0%nat, 1%nat, 9223372036854813184); ((BN TypeAnnotation), 0%nat, 0%nat, 9223372036854813184)];
[((BS TypeAnnotation), 0%nat, 1%nat, 9223372036854775808)];
[((BN TypeAnnotation), 0%nat, 1%nat, 9223372036854813184); ((BN ScillaType), 0%nat, 0%nat, 9223372036854813184); ((BN ScillaType), 1%nat, 0%nat, 9223372036854813184); ((BN FunctionSignature), 0%nat, 0%nat, 9223372036854813184); ((BN FunctionSignature), 1%nat, 0%nat, 9223372036854813184); ((BN RemainingTypes), 0%nat, 0%nat, 9223372036854829568); ((BN RemainingTypes), 1%nat, 0%nat, 9223372036854829568); ((BN RemainingTypes), 2%nat, 0%nat, 9223372036854829568); ((BN RemainingTypes), 3%nat, 0%nat, 9223372036854829568); ((BN RemainingTypes), 4%nat, 0%nat, 9223372036854829568); ((BN RemainingTypes), 5%nat, 0%nat, 9223372036854829568); ((BN RemainingTypes), 6%nat, 0%nat, 9223372036854829568); ((BN MetaIdentifier), 0%nat, 0%nat, 9668111433589641984); ((BN MetaIdentifier), 1%nat, 0%nat, 9668111433589641984); ((BN MetaIdentifier), 2%nat, 0%nat, 9668111433589641984); ((BN MetaIdentifier), 3%nat, 0%nat, 9668111433589641984); ((BN AddressType), 0%nat, 0%nat, 9223372036854829568); ((BN AddressType), 1%nat, 0%nat, 9223372036854829568); ((BN AddressType), 2%nat, 0%nat, 9223372036854829568); ((BN AddressType), 3%nat, 0%nat, 9223372036854829568); ((BN AddressType), 4%nat, 0%nat, 9223372036854829568); ((BN TemplateTypeId), 0%nat, 0%nat, 9223372036854829568); ((BN TypeNameIdentifier), 0%nat, 0%nat, 9668111434126512912); ((BN TypeNameIdentifier), 1%nat, 0%nat, 9668111434126512912); ((BN TypeNameIdentifier), 2%nat, 0%nat, 9668111434126512912); ((BN HexNumber), 0%nat, 0%nat, 16); ((BN ByteString), 0%nat, 0%nat, 9668111434126512912); ((BN TypeOrEnumLikeIdentifierId), 0%nat, 0%nat, 9668111434126512912)];
[((BS TypeAlternativeClause), 0%nat, 1%nat, 9223372036854775808)];
[((BN TypeAlternativeClause), 0%nat, 1%nat, 9223407229883908128); ((BN TypeAlternativeClause), 1%nat, 1%nat, 9223407229883908128); ((BN TypeNameIdentifier), 0%nat, 0%nat, 9223477598628085792); ((BN TypeNameIdentifier), 1%nat, 0%nat, 9223477598628085792); ((BN TypeNameIdentifier), 2%nat, 0%nat, 9223477598628085792); ((BN ByteString), 0%nat, 0%nat, 9223477598628085792); ((BN TypeOrEnumLikeIdentifierId), 0%nat, 0%nat, 9223477598628085792)];
[((BS TypeMapValueAllowingTypeArguments), 0%nat, 1%nat, 9223372036854775808)];
[((BN TypeMapValue), 0%nat, 1%nat, 9223372036854776320); ((BN TypeMapValueAllowingTypeArguments), 0%nat, 1%nat, 9223372036854776320); ((BP (Nt TypeMapValueArguments)), 0%nat, 0%nat, 9379881057437876992); ((BP (Nt TypeMapValueArguments)), 1%nat, 0%nat, 9379881057437876992); ((BN TypeMapValueArguments), 0%nat, 0%nat, 9379881057437876992); ((BN TypeMapValueArguments), 1%nat, 0%nat, 9379881057437876992); ((BN TypeMapValueArguments), 2%nat, 0%nat, 9379881057437876992); ((BN MetaIdentifier), 0%nat, 0%nat, 9379881057437876992); ((BN MetaIdentifier), 1%nat, 0%nat, 9379881057437876992); ((BN MetaIdentifier), 2%nat, 0%nat, 9379881057437876992); ((BN MetaIdentifier), 3%nat, 0%nat, 9379881057437876992); ((BN TypeNameIdentifier), 0%nat, 0%nat, 9379881057437877008); ((BN TypeNameIdentifier), 1%nat, 0%nat, 9379881057437877008); ((BN TypeNameIdentifier), 2%nat, 0%nat, 9379881057437877008); ((BN HexNumber), 0%nat, 0%nat, 16); ((BN ByteString), 0%nat, 0%nat, 9379881057437877008); ((BN TypeOrEnumLikeIdentifierId), 0%nat, 0%nat, 9379881057437877008)];
[((BN TypeMapValueAllowingTypeArguments), 1%nat, 1%nat, 9223372036854776320)];
[((BS ContractTypeArguments), 0%nat, 1%nat, 9223372036854775808)];
[((BN ContractTypeArguments), 0%nat, 1%nat, 9478142514511749412); ((BN ContractTypeArguments), 1%nat, 1%nat, 9478142514511749412); ((BP (Nt TypeArgument)), 0%nat, 0%nat, 444739396734814464); ((BP (Nt TypeArgument)), 1%nat, 0%nat, 444739396734814464); ((BN TypeArgument), 0%nat, 0%nat, 444739396734814464); ((BN TypeArgument), 1%nat, 0%nat, 444739396734814464); ((BN TypeArgument), 2%nat, 0%nat, 444739396734814464); ((BN TypeArgument), 3%nat, 0%nat, 444739396734814464); ((BN TypeArgument), 4%nat, 0%nat, 444739396734814464); ((BN MetaIdentifier), 0%nat, 0%nat, 444739396734814464); ((BN MetaIdentifier), 1%nat, 0%nat, 444739396734814464); ((BN MetaIdentifier), 2%nat, 0%nat, 444739396734814464); ((BN MetaIdentifier), 3%nat, 0%nat, 444739396734814464); ((BN TemplateTypeId), 0%nat, 0%nat, 444739396734814464); ((BN AddressType), 0%nat, 0%nat, 444739396734814464); ((BN AddressType), 1%nat, 0%nat, 444739396734814464); ((BN AddressType), 2%nat, 0%nat, 444739396734814464); ((BN AddressType), 3%nat, 0%nat, 444739396734814464); ((BN AddressType), 4%nat, 0%nat, 444739396734814464); ((BN TypeNameIdentifier), 0%nat, 0%nat, 444739397271685392); ((BN TypeNameIdentifier), 1%nat, 0%nat, 444739397271685392); ((BN TypeNameIdentifier), 2%nat, 0%nat, 444739397271685392); ((BN HexNumber), 0%nat, 0%nat, 16); ((BN ByteString), 0%nat, 0%nat, 444739397271685392); ((BN TypeOrEnumLikeIdentifierId), 0%nat, 0%nat, 444739397271685392)];
[((BS FullExpression), 0%nat, 1%nat, 9223372036854775808)];
[((BN FullExpression), 0%nat, 1%nat, 9223688998126362660); ((BN FullExpression), 1%nat, 1%nat, 9223688998126362660); ((BN RegularId), 0%nat, 0%nat, 32776)];
[((BN FullExpression), 2%nat, 1%nat, 9223688998126362660)];
[((BN FullExpression), 3%nat, 1%nat, 9223688998126362660); ((BN AtomicExpression), 0%nat, 1%nat, 9223688998126362660); ((BP (Nt VariableIdentifier)), 0%nat, 0%nat, 9478142514511749156); ((BP (Nt VariableIdentifier)), 1%nat, 0%nat, 9478142514511749156); ((BN VariableIdentifier), 0%nat, 0%nat, 9478142514511749156); ((BN VariableIdentifier), 1%nat, 0%nat, 9478142514511749156); ((BN VariableIdentifier), 2%nat, 0%nat, 9478142514511749156); ((BN RegularId), 0%nat, 0%nat, 9478142514511749156); ((BN SpecialId), 0%nat, 0%nat, 9478142514511749156); ((BN TypeNameIdentifier), 0%nat, 0%nat, 16); ((BN TypeNameIdentifier), 1%nat, 0%nat, 16); ((BN TypeNameIdentifier), 2%nat, 0%nat, 16); ((BN ByteString), 0%nat, 0%nat, 16); ((BN TypeOrEnumLikeIdentifierId), 0%nat, 0%nat, 16)];
[((BN FullExpression), 4%nat, 1%nat, 9223688998126362660)];
[((BN FullExpression), 5%nat, 1%nat, 9223688998126362660); ((BN FullExpression), 6%nat, 1%nat, 9223688998126362660); ((BN RegularId), 0%nat, 0%nat, 254453516385387776)];
[((BN FullExpression), 7%nat, 1%nat, 9223688998126362660); ((BN FullExpression), 8%nat, 1%nat, 9223688998126362660); ((BN MessageEntry), 0%nat, 0%nat, 2052); ((BN MessageEntry), 1%nat, 0%nat, 2052); ((BN VariableIdentifier), 0%nat, 0%nat, 8); ((BN VariableIdentifier), 1%nat, 0%nat, 8); ((BN VariableIdentifier), 2%nat, 0%nat, 8); ((BN RegularId), 0%nat, 0%nat, 8); ((BN SpecialId), 0%nat, 0%nat, 8); ((BN TypeNameIdentifier), 0%nat, 0%nat, 16); ((BN TypeNameIdentifier), 1%nat, 0%nat, 16); ((BN TypeNameIdentifier), 2%nat, 0%nat, 16); ((BN ByteString), 0%nat, 0%nat, 16); ((BN TypeOrEnumLikeIdentifierId), 0%nat, 0%nat, 16)];
[((BN FullExpression), 9%nat, 1%nat, 9223688998126362660); ((BN VariableIdentifier), 0%nat, 0%nat, 536870912); ((BN VariableIdentifier), 1%nat, 0%nat, 536870912); ((BN VariableIdentifier), 2%nat, 0%nat, 536870912); ((BN RegularId), 0%nat, 0%nat, 536870912); ((BN SpecialId), 0%nat, 0%nat, 536870912); ((BN TypeNameIdentifier), 0%nat, 0%nat, 16); ((BN TypeNameIdentifier), 1%nat, 0%nat, 16); ((BN TypeNameIdentifier), 2%nat, 0%nat, 16); ((BN ByteString), 0%nat, 0%nat, 16); ((BN TypeOrEnumLikeIdentifierId), 0%nat, 0%nat, 16)];
[((BN FullExpression), 10%nat, 1%nat, 9223688998126362660); ((BN FullExpression), 11%nat, 1%nat, 9223688998126362660); ((BN FullExpression), 12%nat, 1%nat, 9223688998126362660); ((BN FullExpression), 13%nat, 1%nat, 9223688998126362660); ((BP (Nt VariableIdentifier)), 0%nat, 0%nat, 9478142514511749156); ((BP (Nt VariableIdentifier)), 1%nat, 0%nat, 9478142514511749156); ((BN ContractTypeArguments), 0%nat, 0%nat, 9478142514511749156); ((BN ContractTypeArguments), 1%nat, 0%nat, 9478142514511749156); ((BN VariableIdentifier), 0%nat, 0%nat, 9478142514511749156); ((BN VariableIdentifier), 1%nat, 0%nat, 9478142514511749156); ((BN VariableIdentifier), 2%nat, 0%nat, 9478142514511749156); ((BN RegularId), 0%nat, 0%nat, 9478142514511749156); ((BN SpecialId), 0%nat, 0%nat, 9478142514511749156); ((BN TypeNameIdentifier), 0%nat, 0%nat, 16); ((BN TypeNameIdentifier), 1%nat, 0%nat, 16); ((BN TypeNameIdentifier), 2%nat, 0%nat, 16); ((BN ByteString), 0%nat, 0%nat, 16); ((BN TypeOrEnumLikeIdentifierId), 0%nat, 0%nat, 16)];
[((BN FullExpression), 14%nat, 1%nat, 9223688998126362660); ((BN TemplateTypeId), 0%nat, 0%nat, 8192)];
[((BN FullExpression), 15%nat, 1%nat, 9223688998126362660); ((BN VariableIdentifier), 0%nat, 0%nat, 444739396734812416); ((BN VariableIdentifier), 1%nat, 0%nat, 444739396734812416); ((BN VariableIdentifier), 2%nat, 0%nat, 444739396734812416); ((BN RegularId), 0%nat, 0%nat, 444739396734812416); ((BN SpecialId), 0%nat, 0%nat, 444739396734812416); ((BN TypeNameIdentifier), 0%nat, 0%nat, 16); ((BN TypeNameIdentifier), 1%nat, 0%nat, 16); ((BN TypeNameIdentifier), 2%nat, 0%nat, 16); ((BN ByteString), 0%nat, 0%nat, 16); ((BN TypeOrEnumLikeIdentifierId), 0%nat, 0%nat, 16)];
[((BN MetaIdentifier), 0%nat, 1%nat, 9478142514511750180); ((BN MetaIdentifier), 1%nat, 1%nat, 9478142514511750180); ((BN VariableIdentifier), 2%nat, 1%nat, 9478142514511749156); ((BN ValueLiteral), 0%nat, 1%nat, 9223688998126362660); ((BN SignedInteger), 0%nat, 0%nat, 9223688998126362660)];
[((BN AtomicExpression), 1%nat, 1%nat, 9223688998126362660)];
[((BN MetaIdentifier), 2%nat, 1%nat, 9478142514511750180); ((BN ValueLiteral), 1%nat, 1%nat, 9223688998126362660)];
[((BN ValueLiteral), 2%nat, 1%nat, 9223688998126364708)];
[((BN ValueLiteral), 3%nat, 1%nat, 9223688998126364708); ((BN TypeMapKey), 0%nat, 0%nat, 156509020583100672); ((BN TypeMapKey), 1%nat, 0%nat, 156509020583100672); ((BN TypeMapKey), 2%nat, 0%nat, 156509020583100672); ((BN TypeMapKey), 3%nat, 0%nat, 156509020583100672); ((BN MetaIdentifier), 0%nat, 0%nat, 156509020583100672); ((BN MetaIdentifier), 1%nat, 0%nat, 156509020583100672); ((BN MetaIdentifier), 2%nat, 0%nat, 156509020583100672); ((BN MetaIdentifier), 3%nat, 0%nat, 156509020583100672); ((BN AddressType), 0%nat, 0%nat, 156509020583100672); ((BN AddressType), 1%nat, 0%nat, 156509020583100672); ((BN AddressType), 2%nat, 0%nat, 156509020583100672); ((BN AddressType), 3%nat, 0%nat, 156509020583100672); ((BN AddressType), 4%nat, 0%nat, 156509020583100672); ((BN TypeNameIdentifier), 0%nat, 0%nat, 156509021119971600); ((BN TypeNameIdentifier), 1%nat, 0%nat, 156509021119971600); ((BN TypeNameIdentifier), 2%nat, 0%nat, 156509021119971600); ((BN HexNumber), 0%nat, 0%nat, 16); ((BN ByteString), 0%nat, 0%nat, 156509021119971600); ((BN TypeOrEnumLikeIdentifierId), 0%nat, 0%nat, 156509021119971600)];
[((BN StringLiteral), 0%nat, 1%nat, 9223688998126364708)];
[((BS PatternMatchExpressionClause), 0%nat, 1%nat, 9223372036854775808)];
[((BN PatternMatchExpressionClause), 0%nat, 1%nat, 9223372037928517664); ((BN Pattern), 0%nat, 0%nat, 8192); ((BN Pattern), 1%nat, 0%nat, 8192); ((BN Pattern), 2%nat, 0%nat, 8192); ((BN Pattern), 3%nat, 0%nat, 8192); ((BN RegularId), 0%nat, 0%nat, 8192); ((BN MetaIdentifier), 0%nat, 0%nat, 192529021511147776); ((BN MetaIdentifier), 1%nat, 0%nat, 192529021511147776); ((BN MetaIdentifier), 2%nat, 0%nat, 192529021511147776); ((BN MetaIdentifier), 3%nat, 0%nat, 192529021511147776); ((BN TypeNameIdentifier), 0%nat, 0%nat, 192529021511147792); ((BN TypeNameIdentifier), 1%nat, 0%nat, 192529021511147792); ((BN TypeNameIdentifier), 2%nat, 0%nat, 192529021511147792); ((BN HexNumber), 0%nat, 0%nat, 16); ((BN ByteString), 0%nat, 0%nat, 192529021511147792); ((BN TypeOrEnumLikeIdentifierId), 0%nat, 0%nat, 192529021511147792)];
[((BS Pattern), 0%nat, 1%nat, 9223372036854775808)];
[((BN Pattern), 0%nat, 1%nat, 9223372036854784512)];
[((BN Pattern), 1%nat, 1%nat, 9223372036854784512)];
[((BN Pattern), 2%nat, 1%nat, 9223372036854784512); ((BN Pattern), 3%nat, 1%nat, 9223372036854784512); ((BP (Nt ArgumentPattern)), 0%nat, 0%nat, 9415901058365924096); ((BP (Nt ArgumentPattern)), 1%nat, 0%nat, 9415901058365924096); ((BN ArgumentPattern), 0%nat, 0%nat, 9415901058365924096); ((BN ArgumentPattern), 1%nat, 0%nat, 9415901058365924096); ((BN ArgumentPattern), 2%nat, 0%nat, 9415901058365924096); ((BN ArgumentPattern), 3%nat, 0%nat, 9415901058365924096); ((BN RegularId), 0%nat, 0%nat, 9415901058365924096); ((BN MetaIdentifier), 0%nat, 0%nat, 9415901058365924096); ((BN MetaIdentifier), 1%nat, 0%nat, 9415901058365924096); ((BN MetaIdentifier), 2%nat, 0%nat, 9415901058365924096); ((BN MetaIdentifier), 3%nat, 0%nat, 9415901058365924096); ((BN TypeNameIdentifier), 0%nat, 0%nat, 9415901058365924112); ((BN TypeNameIdentifier), 1%nat, 0%nat, 9415901058365924112); ((BN TypeNameIdentifier), 2%nat, 0%nat, 9415901058365924112); ((BN HexNumber), 0%nat, 0%nat, 16); ((BN ByteString), 0%nat, 0%nat, 9415901058365924112); ((BN TypeOrEnumLikeIdentifierId), 0%nat, 0%nat, 9415901058365924112)];
[((BS ArgumentPattern), 0%nat, 1%nat, 9223372036854775808)];
[((BN ArgumentPattern), 0%nat, 1%nat, 9415901058365924096)];
[((BN ArgumentPattern), 1%nat, 1%nat, 9415901058365924096)];
[((BN ArgumentPattern), 2%nat, 1%nat, 9415901058365924096)];
[((BN ArgumentPattern), 3%nat, 1%nat, 9415901058365924096); ((BN Pattern), 0%nat, 0%nat, 512); ((BN Pattern), 1%nat, 0%nat, 512); ((BN Pattern), 2%nat, 0%nat, 512); ((BN Pattern), 3%nat, 0%nat, 512); ((BN RegularId), 0%nat, 0%nat, 512); ((BN MetaIdentifier), 0%nat, 0%nat, 192529021511140096); ((BN MetaIdentifier), 1%nat, 0%nat, 192529021511140096); ((BN MetaIdentifier), 2%nat, 0%nat, 192529021511140096); ((BN MetaIdentifier), 3%nat, 0%nat, 192529021511140096); ((BN TypeNameIdentifier), 0%nat, 0%nat, 192529021511140112); ((BN TypeNameIdentifier), 1%nat, 0%nat, 192529021511140112); ((BN TypeNameIdentifier), 2%nat, 0%nat, 192529021511140112); ((BN HexNumber), 0%nat, 0%nat, 16); ((BN ByteString), 0%nat, 0%nat, 192529021511140112); ((BN TypeOrEnumLikeIdentifierId), 0%nat, 0%nat, 192529021511140112)];
[((BS NextMessageEntry), 0%nat, 1%nat, 9223372036854775808)];
[((BN NextMessageEntry), 0%nat, 1%nat, 9223372036854777860); ((BN MessageEntry), 0%nat, 0%nat, 9223372036854777860); ((BN MessageEntry), 1%nat, 0%nat, 9223372036854777860); ((BN VariableIdentifier), 0%nat, 0%nat, 8); ((BN VariableIdentifier), 1%nat, 0%nat, 8); ((BN VariableIdentifier), 2%nat, 0%nat, 8); ((BN RegularId), 0%nat, 0%nat, 8); ((BN SpecialId), 0%nat, 0%nat, 8); ((BN TypeNameIdentifier), 0%nat, 0%nat, 16); ((BN TypeNameIdentifier), 1%nat, 0%nat, 16); ((BN TypeNameIdentifier), 2%nat, 0%nat, 16); ((BN ByteString), 0%nat, 0%nat, 16); ((BN TypeOrEnumLikeIdentifierId), 0%nat, 0%nat, 16)];
[((BS MessageEntry), 0%nat, 1%nat, 9223372036854775808)];
[((BN MessageEntry), 0%nat, 1%nat, 9223372036854777860); ((BN MessageEntry), 1%nat, 1%nat, 9223372036854777860)];
[((BS AtomicExpression), 0%nat, 1%nat, 9223372036854775808)];
[((BN AtomicExpression), 0%nat, 1%nat, 9223372036854775808)];
[((BN VariableIdentifier), 2%nat, 1%nat, 9223372036854777860); ((BN ValueLiteral), 0%nat, 1%nat, 9223372036854777860); ((BN SignedInteger), 0%nat, 0%nat, 9223372036854777860)];
[((BN ValueLiteral), 1%nat, 1%nat, 9223372036854777860)];
[((BS ValueLiteral), 0%nat, 1%nat, 9223372036854775808)];
[((BN ValueLiteral), 0%nat, 1%nat, 9223372036854775808); ((BN SignedInteger), 0%nat, 0%nat, 9223372036854775808)];
[((BS Statement), 0%nat, 1%nat, 9223372036854775808)];
[((BN Statement), 0%nat, 1%nat, 9223372037928517668); ((BN Statement), 2%nat, 1%nat, 9223372037928517668); ((BN Statement), 3%nat, 1%nat, 9223372037928517668); ((BN Statement), 4%nat, 1%nat, 9223372037928517668); ((BN Statement), 5%nat, 1%nat, 9223372037928517668); ((BN Statement), 6%nat, 1%nat, 9223372037928517668); ((BN Statement), 7%nat, 1%nat, 9223372037928517668); ((BN Statement), 8%nat, 1%nat, 9223372037928517668); ((BN ComponentId), 1%nat, 1%nat, 9477825554313904164); ((BN RemoteFetchStatement), 0%nat, 1%nat, 9223372037928517668); ((BN RemoteFetchStatement), 1%nat, 1%nat, 9223372037928517668); ((BN RemoteFetchStatement), 2%nat, 1%nat, 9223372037928517668); ((BN RemoteFetchStatement), 3%nat, 1%nat, 9223372037928517668); ((BN RemoteFetchStatement), 4%nat, 1%nat, 9223372037928517668); ((BP (Nt MapAccess)), 0%nat, 0%nat, 262208); ((BP (Nt MapAccess)), 1%nat, 0%nat, 262208); ((BN MapAccess), 0%nat, 0%nat, 262208)];
[((BN Statement), 1%nat, 1%nat, 9223372037928517668)];
[((BN Statement), 9%nat, 1%nat, 9223372037928517668); ((BN RegularId), 0%nat, 0%nat, 64)];
[((BN Statement), 10%nat, 1%nat, 9223372037928517668)];
[((BN Statement), 11%nat, 1%nat, 9223372037928517668); ((BN VariableIdentifier), 0%nat, 0%nat, 9223372037928517668); ((BN VariableIdentifier), 1%nat, 0%nat, 9223372037928517668); ((BN VariableIdentifier), 2%nat, 0%nat, 9223372037928517668); ((BN RegularId), 0%nat, 0%nat, 9223372037928517668); ((BN SpecialId), 0%nat, 0%nat, 9223372037928517668); ((BN TypeNameIdentifier), 0%nat, 0%nat, 16); ((BN TypeNameIdentifier), 1%nat, 0%nat, 16); ((BN TypeNameIdentifier), 2%nat, 0%nat, 16); ((BN ByteString), 0%nat, 0%nat, 16); ((BN TypeOrEnumLikeIdentifierId), 0%nat, 0%nat, 16)];
[((BN Statement), 12%nat, 1%nat, 9223372037928517668); ((BN VariableIdentifier), 0%nat, 0%nat, 9223372037928517668); ((BN VariableIdentifier), 1%nat, 0%nat, 9223372037928517668); ((BN VariableIdentifier), 2%nat, 0%nat, 9223372037928517668); ((BN RegularId), 0%nat, 0%nat, 9223372037928517668); ((BN SpecialId), 0%nat, 0%nat, 9223372037928517668); ((BN TypeNameIdentifier), 0%nat, 0%nat, 16); ((BN TypeNameIdentifier), 1%nat, 0%nat, 16); ((BN TypeNameIdentifier), 2%nat, 0%nat, 16); ((BN ByteString), 0%nat, 0%nat, 16); ((BN TypeOrEnumLikeIdentifierId), 0%nat, 0%nat, 16)];
[((BN Statement), 13%nat, 1%nat, 9223372037928517668); ((BN Statement), 14%nat, 1%nat, 9223372037928517668); ((BN VariableIdentifier), 0%nat, 0%nat, 9223372037928517668); ((BN VariableIdentifier), 1%nat, 0%nat, 9223372037928517668); ((BN VariableIdentifier), 2%nat, 0%nat, 9223372037928517668); ((BN RegularId), 0%nat, 0%nat, 9223372037928517668); ((BN SpecialId), 0%nat, 0%nat, 9223372037928517668); ((BN TypeNameIdentifier), 0%nat, 0%nat, 16); ((BN TypeNameIdentifier), 1%nat, 0%nat, 16); ((BN TypeNameIdentifier), 2%nat, 0%nat, 16); ((BN ByteString), 0%nat, 0%nat, 16); ((BN TypeOrEnumLikeIdentifierId), 0%nat, 0%nat, 16)];
[((BN Statement), 15%nat, 1%nat, 9223372037928517668); ((BN VariableIdentifier), 0%nat, 0%nat, 536870912); ((BN VariableIdentifier), 1%nat, 0%nat, 536870912); ((BN VariableIdentifier), 2%nat, 0%nat, 536870912); ((BN RegularId), 0%nat, 0%nat, 536870912); ((BN SpecialId), 0%nat, 0%nat, 536870912); ((BN TypeNameIdentifier), 0%nat, 0%nat, 16); ((BN TypeNameIdentifier), 1%nat, 0%nat, 16); ((BN TypeNameIdentifier), 2%nat, 0%nat, 16); ((BN ByteString), 0%nat, 0%nat, 16); ((BN TypeOrEnumLikeIdentifierId), 0%nat, 0%nat, 16)];
[((BN Statement), 16%nat, 1%nat, 9223372037928517668); ((BN Statement), 17%nat, 1%nat, 9223372037928517668); ((BP (Nt VariableIdentifier)), 0%nat, 0%nat, 9477825554313904164); ((BP (Nt VariableIdentifier)), 1%nat, 0%nat, 9477825554313904164); ((BN VariableIdentifier), 0%nat, 0%nat, 9477825554313904164); ((BN VariableIdentifier), 1%nat, 0%nat, 9477825554313904164); ((BN VariableIdentifier), 2%nat, 0%nat, 9477825554313904164); ((BN RegularId), 0%nat, 0%nat, 9477825554313904164); ((BN SpecialId), 0%nat, 0%nat, 9477825554313904164); ((BN TypeNameIdentifier), 0%nat, 0%nat, 16); ((BN TypeNameIdentifier), 1%nat, 0%nat, 16); ((BN TypeNameIdentifier), 2%nat, 0%nat, 16); ((BN ByteString), 0%nat, 0%nat, 16); ((BN TypeOrEnumLikeIdentifierId), 0%nat, 0%nat, 16)];
[((BN Statement), 18%nat, 1%nat, 9223372037928517668); ((BN VariableIdentifier), 0%nat, 0%nat, 182395922347458560); ((BN VariableIdentifier), 1%nat, 0%nat, 182395922347458560); ((BN VariableIdentifier), 2%nat, 0%nat, 182395922347458560); ((BN RegularId), 0%nat, 0%nat, 182395922347458560); ((BN SpecialId), 0%nat, 0%nat, 182395922347458560); ((BN TypeNameIdentifier), 0%nat, 0%nat, 16); ((BN TypeNameIdentifier), 1%nat, 0%nat, 16); ((BN TypeNameIdentifier), 2%nat, 0%nat, 16); ((BN ByteString), 0%nat, 0%nat, 16); ((BN TypeOrEnumLikeIdentifierId), 0%nat, 0%nat, 16)];
[((BN ComponentId), 0%nat, 1%nat, 9477825554313904420)];
[((BS NextStatement), 0%nat, 1%nat, 9223372036854775808)];
[((BN NextStatement), 0%nat, 1%nat, 9223372037928517668); ((BN Statement), 0%nat, 0%nat, 9223372037928517668); ((BN Statement), 1%nat, 0%nat, 9223372037928517668); ((BN Statement), 2%nat, 0%nat, 9223372037928517668); ((BN Statement), 3%nat, 0%nat, 9223372037928517668); ((BN Statement), 4%nat, 0%nat, 9223372037928517668); ((BN Statement), 5%nat, 0%nat, 9223372037928517668); ((BN Statement), 6%nat, 0%nat, 9223372037928517668); ((BN Statement), 7%nat, 0%nat, 9223372037928517668); ((BN Statement), 8%nat, 0%nat, 9223372037928517668); ((BN Statement), 9%nat, 0%nat, 9223372037928517668); ((BN Statement), 10%nat, 0%nat, 9223372037928517668); ((BN Statement), 11%nat, 0%nat, 9223372037928517668); ((BN Statement), 12%nat, 0%nat, 9223372037928517668); ((BN Statement), 13%nat, 0%nat, 9223372037928517668); ((BN Statement), 14%nat, 0%nat, 9223372037928517668); ((BN Statement), 15%nat, 0%nat, 9223372037928517668); ((BN Statement), 16%nat, 0%nat, 9223372037928517668); ((BN Statement), 17%nat, 0%nat, 9223372037928517668); ((BN Statement), 18%nat, 0%nat, 9223372037928517668); ((BN RegularId), 0%nat, 0%nat, 9477825554314330212); ((BN RemoteFetchStatement), 0%nat, 0%nat, 9223372037928517668); ((BN RemoteFetchStatement), 1%nat, 0%nat, 9223372037928517668); ((BN RemoteFetchStatement), 2%nat, 0%nat, 9223372037928517668); ((BN RemoteFetchStatement), 3%nat, 0%nat, 9223372037928517668); ((BN RemoteFetchStatement), 4%nat, 0%nat, 9223372037928517668); ((BN ComponentId), 0%nat, 0%nat, 9477825554313904164); ((BN ComponentId), 1%nat, 0%nat, 9477825554313904164); ((BN TypeNameIdentifier), 0%nat, 0%nat, 9477825554313904164); ((BN TypeNameIdentifier), 1%nat, 0%nat, 9477825554313904164); ((BN TypeNameIdentifier), 2%nat, 0%nat, 9477825554313904164); ((BN ByteString), 0%nat, 0%nat, 9477825554313904164); ((BN TypeOrEnumLikeIdentifierId), 0%nat, 0%nat, 9477825554313904164)];
[((BS StatementBlock), 0%nat, 1%nat, 9223372036854775808)];
[((BN StatementBlock), 0%nat, 1%nat, 9223372037928517664); ((BN StatementBlock), 1%nat, 1%nat, 9223372037928517664); ((BP (Nt NextStatement)), 0%nat, 0%nat, 9223372037928517668); ((BP (Nt NextStatement)), 1%nat, 0%nat, 9223372037928517668); ((BN NextStatement), 0%nat, 0%nat, 9223372037928517668)];
[((BS BlockchainFetchArguments), 0%nat, 1%nat, 9223372036854775808)];
[((BN BlockchainFetchArguments), 0%nat, 1%nat, 9223372037928517668); ((BP (Nt VariableIdentifier)), 0%nat, 0%nat, 254453516385387008); ((BP (Nt VariableIdentifier)), 1%nat, 0%nat, 254453516385387008); ((BN VariableIdentifier), 0%nat, 0%nat, 254453516385387008); ((BN VariableIdentifier), 1%nat, 0%nat, 254453516385387008); ((BN VariableIdentifier), 2%nat, 0%nat, 254453516385387008); ((BN RegularId), 0%nat, 0%nat, 254453516385387008); ((BN SpecialId), 0%nat, 0%nat, 254453516385387008); ((BN TypeNameIdentifier), 0%nat, 0%nat, 16); ((BN TypeNameIdentifier), 1%nat, 0%nat, 16); ((BN TypeNameIdentifier), 2%nat, 0%nat, 16); ((BN ByteString), 0%nat, 0%nat, 16); ((BN TypeOrEnumLikeIdentifierId), 0%nat, 0%nat, 16)];
[((BS ComponentId), 0%nat, 1%nat, 9223372036854775808)];
[((BN ComponentId), 1%nat, 1%nat, 9223372037928517924)];
[((BS PatternMatchClause), 0%nat, 1%nat, 9223372036854775808)];
[((BN PatternMatchClause), 0%nat, 1%nat, 9223372037928517664); ((BN PatternMatchClause), 1%nat, 1%nat, 9223372037928517664); ((BN Pattern), 0%nat, 0%nat, 8192); ((BN Pattern), 1%nat, 0%nat, 8192); ((BN Pattern), 2%nat, 0%nat, 8192); ((BN Pattern), 3%nat, 0%nat, 8192); ((BN RegularId), 0%nat, 0%nat, 8192); ((BN MetaIdentifier), 0%nat, 0%nat, 192529021511147776); ((BN MetaIdentifier), 1%nat, 0%nat, 192529021511147776); ((BN MetaIdentifier), 2%nat, 0%nat, 192529021511147776); ((BN MetaIdentifier), 3%nat, 0%nat, 192529021511147776); ((BN TypeNameIdentifier), 0%nat, 0%nat, 192529021511147792); ((BN TypeNameIdentifier), 1%nat, 0%nat, 192529021511147792); ((BN TypeNameIdentifier), 2%nat, 0%nat, 192529021511147792); ((BN HexNumber), 0%nat, 0%nat, 16); ((BN ByteString), 0%nat, 0%nat, 192529021511147792); ((BN TypeOrEnumLikeIdentifierId), 0%nat, 0%nat, 192529021511147792)];
[((BS RemoteFetchStatement), 0%nat, 1%nat, 9223372036854775808)];
[((BN RemoteFetchStatement), 0%nat, 1%nat, 9223372036854775808); ((BN RemoteFetchStatement), 1%nat, 1%nat, 9223372036854775808); ((BN RemoteFetchStatement), 2%nat, 1%nat, 9223372036854775808); ((BN RemoteFetchStatement), 3%nat, 1%nat, 9223372036854775808); ((BN RemoteFetchStatement), 4%nat, 1%nat, 9223372036854775808)];
[((BS MapAccess), 0%nat, 1%nat, 9223372036854775808)];
[((BN MapAccess), 0%nat, 1%nat, 9223372037928779876); ((BN VariableIdentifier), 0%nat, 0%nat, 128); ((BN VariableIdentifier), 1%nat, 0%nat, 128); ((BN VariableIdentifier), 2%nat, 0%nat, 128); ((BN RegularId), 0%nat, 0%nat, 128); ((BN SpecialId), 0%nat, 0%nat, 128); ((BN TypeNameIdentifier), 0%nat, 0%nat, 16); ((BN TypeNameIdentifier), 1%nat, 0%nat, 16); ((BN TypeNameIdentifier), 2%nat, 0%nat, 16); ((BN ByteString), 0%nat, 0%nat, 16); ((BN TypeOrEnumLikeIdentifierId), 0%nat, 0%nat, 16)];
[((BS ParameterPair), 0%nat, 1%nat, 9223372036854775808)];
[((BN ParameterPair), 0%nat, 1%nat, 9223372036854780416)];
[((BS NextParameterPair), 0%nat, 1%nat, 9223372036854775808)];
[((BN NextParameterPair), 0%nat, 1%nat, 9223372036854780416); ((BN ParameterPair), 0%nat, 0%nat, 9223372036854780416); ((BN TypedIdentifier), 0%nat, 0%nat, 9223372036854780416); ((BN RegularId), 0%nat, 0%nat, 8)];
[((BS ComponentParameters), 0%nat, 1%nat, 9223372036854775808)];
[((BN ComponentParameters), 0%nat, 1%nat, 9406056978024759296); ((BN ComponentParameters), 1%nat, 1%nat, 9406056978024759296); ((BN ComponentParameters), 2%nat, 1%nat, 9406056978024759296); ((BN ComponentParameters), 3%nat, 1%nat, 9406056978024759296); ((BP (Nt NextParameterPair)), 0%nat, 0%nat, 4608); ((BP (Nt NextParameterPair)), 1%nat, 0%nat, 4608); ((BN ParameterPair), 0%nat, 0%nat, 4608); ((BN NextParameterPair), 0%nat, 0%nat, 4608); ((BN TypedIdentifier), 0%nat, 0%nat, 4608); ((BN RegularId), 0%nat, 0%nat, 8)];
[((BS ComponentDefinition), 0%nat, 1%nat, 9223372036854775808)];
[((BN ComponentDefinition), 0%nat, 1%nat, 9223653529011355648)];
[((BN ComponentDefinition), 1%nat, 1%nat, 9223653529011355648)];
[((BN TransitionDefinition), 0%nat, 1%nat, 9223653529011355648); ((BN ComponentId), 0%nat, 0%nat, 256); ((BN ComponentId), 1%nat, 0%nat, 256); ((BN TypeNameIdentifier), 0%nat, 0%nat, 256); ((BN TypeNameIdentifier), 1%nat, 0%nat, 256); ((BN TypeNameIdentifier), 2%nat, 0%nat, 256); ((BN RegularId), 0%nat, 0%nat, 256); ((BN ByteString), 0%nat, 0%nat, 256); ((BN TypeOrEnumLikeIdentifierId), 0%nat, 0%nat, 256)];
[((BN ProcedureDefinition), 0%nat, 1%nat, 9223653529011355648); ((BN ComponentId), 0%nat, 0%nat, 256); ((BN ComponentId), 1%nat, 0%nat, 256); ((BN TypeNameIdentifier), 0%nat, 0%nat, 256); ((BN TypeNameIdentifier), 1%nat, 0%nat, 256); ((BN TypeNameIdentifier), 2%nat, 0%nat, 256); ((BN RegularId), 0%nat, 0%nat, 256); ((BN ByteString), 0%nat, 0%nat, 256); ((BN TypeOrEnumLikeIdentifierId), 0%nat, 0%nat, 256)];
[((BS TransitionDefinition), 0%nat, 1%nat, 9223372036854775808)];
[((BS ProcedureDefinition), 0%nat, 1%nat, 9223372036854775808)];
[((BS ComponentBody), 0%nat, 1%nat, 9223372036854775808)];
[((BN ComponentBody), 0%nat, 1%nat, 9223653529011355648)];
[((BN ComponentBody), 1%nat, 1%nat, 9223653529011355648)];
[((BS ContractDefinition), 0%nat, 1%nat, 9223372036854775808)];
[((BN ContractDefinition), 0%nat, 1%nat, 9223372036854775808); ((BN ContractDefinition), 1%nat, 1%nat, 9223372036854775808); ((BN ContractDefinition), 2%nat, 1%nat, 9223372036854775808); ((BN ContractDefinition), 3%nat, 1%nat, 9223372036854775808); ((BN ContractDefinition), 4%nat, 1%nat, 9223372036854775808); ((BN ContractDefinition), 5%nat, 1%nat, 9223372036854775808); ((BN ContractDefinition), 6%nat, 1%nat, 9223372036854775808); ((BN ContractDefinition), 7%nat, 1%nat, 9223372036854775808); ((BN TypeNameIdentifier), 0%nat, 0%nat, 256); ((BN TypeNameIdentifier), 1%nat, 0%nat, 256); ((BN TypeNameIdentifier), 2%nat, 0%nat, 256); ((BN ByteString), 0%nat, 0%nat, 256); ((BN TypeOrEnumLikeIdentifierId), 0%nat, 0%nat, 256)];
[((BS ContractField), 0%nat, 1%nat, 9223372036854775808)];
[((BN ContractField), 0%nat, 1%nat, 9223653803889262592); ((BN TypedIdentifier), 0%nat, 0%nat, 32768); ((BN RegularId), 0%nat, 0%nat, 8)];
[((BS WithConstraint), 0%nat, 1%nat, 9223372036854775808)];
[((BN WithConstraint), 0%nat, 1%nat, 9223653803889262592); ((BN FullExpression), 0%nat, 0%nat, 8192); ((BN FullExpression), 1%nat, 0%nat, 8192); ((BN FullExpression), 2%nat, 0%nat, 8192); ((BN FullExpression), 3%nat, 0%nat, 8192); ((BN FullExpression), 4%nat, 0%nat, 8192); ((BN FullExpression), 5%nat, 0%nat, 8192); ((BN FullExpression), 6%nat, 0%nat, 8192); ((BN FullExpression), 7%nat, 0%nat, 8192); ((BN FullExpression), 8%nat, 0%nat, 8192); ((BN FullExpression), 9%nat, 0%nat, 8192); ((BN FullExpression), 10%nat, 0%nat, 8192); ((BN FullExpression), 11%nat, 0%nat, 8192); ((BN FullExpression), 12%nat, 0%nat, 8192); ((BN FullExpression), 13%nat, 0%nat, 8192); ((BN FullExpression), 14%nat, 0%nat, 8192); ((BN FullExpression), 15%nat, 0%nat, 8192); ((BN VariableIdentifier), 0%nat, 0%nat, 254453516385394688); ((BN VariableIdentifier), 1%nat, 0%nat, 254453516385394688); ((BN VariableIdentifier), 2%nat, 0%nat, 254453516385394688); ((BN AtomicExpression), 0%nat, 0%nat, 8192); ((BN AtomicExpression), 1%nat, 0%nat, 8192); ((BN MetaIdentifier), 0%nat, 0%nat, 254453516385395712); ((BN MetaIdentifier), 1%nat, 0%nat, 254453516385395712); ((BN MetaIdentifier), 2%nat, 0%nat, 254453516385395712); ((BN MetaIdentifier), 3%nat, 0%nat, 254453516385395712); ((BN RegularId), 0%nat, 0%nat, 254453516385394688); ((BN SpecialId), 0%nat, 0%nat, 254453516385394688); ((BN TypeNameIdentifier), 0%nat, 0%nat, 258957116012766224); ((BN TypeNameIdentifier), 1%nat, 0%nat, 258957116012766224); ((BN TypeNameIdentifier), 2%nat, 0%nat, 258957116012766224); ((BN ValueLiteral), 0%nat, 0%nat, 8192); ((BN ValueLiteral), 1%nat, 0%nat, 8192); ((BN ValueLiteral), 2%nat, 0%nat, 8192); ((BN ValueLiteral), 3%nat, 0%nat, 8192); ((BN HexNumber), 0%nat, 0%nat, 8208); ((BN ByteString), 0%nat, 0%nat, 258957116012766224); ((BN TypeOrEnumLikeIdentifierId), 0%nat, 0%nat, 258957116012766224); ((BN StringLiteral), 0%nat, 0%nat, 8192)];
[((BS HexNumber), 0%nat, 1%nat, 9223372036854775808)];
[((BS SignedInteger), 0%nat, 1%nat, 9223372036854775808)];
[((BN SignedInteger), 0%nat, 1%nat, 9223688998176696356)];
[((BS RegularId), 0%nat, 1%nat, 9223372036854775808)];
[((BS SpecialId), 0%nat, 1%nat, 9223372036854775808)];
[((BS TypeOrEnumLikeIdentifierId), 0%nat, 1%nat, 9223372036854775808)];
[((BS TemplateTypeId), 0%nat, 1%nat, 9223372036854775808)];
[((BS StringLiteral), 0%nat, 1%nat, 9223372036854775808)];
[((BN ImportedName), 1%nat, 2%nat, 9369739170823536640); ((BN TypeNameIdentifier), 0%nat, 0%nat, 9369739170823536640); ((BN TypeNameIdentifier), 1%nat, 0%nat, 9369739170823536640); ((BN TypeNameIdentifier), 2%nat, 0%nat, 9369739170823536640); ((BN ByteString), 0%nat, 0%nat, 9369739170823536640); ((BN TypeOrEnumLikeIdentifierId), 0%nat, 0%nat, 9369739170823536640)];
[((BN ImportDeclarations), 0%nat, 2%nat, 9223372045495042048); ((BN ImportedName), 0%nat, 0%nat, 9223372045495042048); ((BN ImportedName), 1%nat, 0%nat, 9223372045495042048); ((BN TypeNameIdentifier), 0%nat, 0%nat, 9223512782983397376); ((BN TypeNameIdentifier), 1%nat, 0%nat, 9223512782983397376); ((BN TypeNameIdentifier), 2%nat, 0%nat, 9223512782983397376); ((BN ByteString), 0%nat, 0%nat, 9223512782983397376); ((BN TypeOrEnumLikeIdentifierId), 0%nat, 0%nat, 9223512782983397376)];
[((BN ImportDeclarations), 1%nat, 2%nat, 9223372045495042048); ((BP (Nt ImportedName)), 1%nat, 1%nat, 9369739170823536640); ((BN ImportedName), 0%nat, 0%nat, 9369739170823536640); ((BN ImportedName), 1%nat, 0%nat, 9369739170823536640); ((BN TypeNameIdentifier), 0%nat, 0%nat, 9369879908311891968); ((BN TypeNameIdentifier), 1%nat, 0%nat, 9369879908311891968); ((BN TypeNameIdentifier), 2%nat, 0%nat, 9369879908311891968); ((BN ByteString), 0%nat, 0%nat, 9369879908311891968); ((BN TypeOrEnumLikeIdentifierId), 0%nat, 0%nat, 9369879908311891968)];
[((BP (Nt ImportedName)), 0%nat, 1%nat, 9369739170823536640)];
[((BN MetaIdentifier), 1%nat, 2%nat, 9704457191882292004); ((BN TypeNameIdentifier), 0%nat, 0%nat, 9704457191882292004); ((BN TypeNameIdentifier), 1%nat, 0%nat, 9704457191882292004); ((BN TypeNameIdentifier), 2%nat, 0%nat, 9704457191882292004); ((BN ByteString), 0%nat, 0%nat, 9704457191882292004); ((BN TypeOrEnumLikeIdentifierId), 0%nat, 0%nat, 9704457191882292004)];
[((BN MetaIdentifier), 2%nat, 2%nat, 9776514785920220964); ((BN TypeNameIdentifier), 0%nat, 0%nat, 9776514785920220964); ((BN TypeNameIdentifier), 1%nat, 0%nat, 9776514785920220964); ((BN TypeNameIdentifier), 2%nat, 0%nat, 9776514785920220964); ((BN ByteString), 0%nat, 0%nat, 9776514785920220964); ((BN TypeOrEnumLikeIdentifierId), 0%nat, 0%nat, 9776514785920220964)];
[((BN VariableIdentifier), 2%nat, 2%nat, 9776655523943295916); ((BN RegularId), 0%nat, 0%nat, 9776655523943295916)];
[((BN BuiltinArguments), 0%nat, 2%nat, 9478142514511749156)];
[((BN BuiltinArguments), 2%nat, 2%nat, 9478142514511749156)];
[((BN RemainingTypes), 1%nat, 2%nat, 9223372037928571392); ((BP (Nt TypeArgument)), 1%nat, 1%nat, 9668111434663383808); ((BN TypeArgument), 0%nat, 0%nat, 9668111434663383808); ((BN TypeArgument), 1%nat, 0%nat, 9668111434663383808); ((BN TypeArgument), 2%nat, 0%nat, 9668111434663383808); ((BN TypeArgument), 3%nat, 0%nat, 9668111434663383808); ((BN TypeArgument), 4%nat, 0%nat, 9668111434663383808); ((BN MetaIdentifier), 0%nat, 0%nat, 9668111434663383808); ((BN MetaIdentifier), 1%nat, 0%nat, 9668111434663383808); ((BN MetaIdentifier), 2%nat, 0%nat, 9668111434663383808); ((BN MetaIdentifier), 3%nat, 0%nat, 9668111434663383808); ((BN TemplateTypeId), 0%nat, 0%nat, 9668111434663383808); ((BN AddressType), 0%nat, 0%nat, 9668111434663383808); ((BN AddressType), 1%nat, 0%nat, 9668111434663383808); ((BN AddressType), 2%nat, 0%nat, 9668111434663383808); ((BN AddressType), 3%nat, 0%nat, 9668111434663383808); ((BN AddressType), 4%nat, 0%nat, 9668111434663383808); ((BN TypeNameIdentifier), 0%nat, 0%nat, 9668111435200254736); ((BN TypeNameIdentifier), 1%nat, 0%nat, 9668111435200254736); ((BN TypeNameIdentifier), 2%nat, 0%nat, 9668111435200254736); ((BN HexNumber), 0%nat, 0%nat, 16); ((BN ByteString), 0%nat, 0%nat, 9668111435200254736); ((BN TypeOrEnumLikeIdentifierId), 0%nat, 0%nat, 9668111435200254736)];
[((BP (Nt TypeArgument)), 0%nat, 1%nat, 9668428394861230884)];
[((BN RemainingTypes), 2%nat, 2%nat, 9223372037928571392); ((BN TypeMapValue), 0%nat, 0%nat, 9223372037928571392); ((BN TypeMapValue), 1%nat, 0%nat, 9223372037928571392); ((BN TypeMapValue), 2%nat, 0%nat, 9223372037928571392); ((BN TypeMapValue), 3%nat, 0%nat, 9223372037928571392); ((BN MetaIdentifier), 0%nat, 0%nat, 9223372037928571392); ((BN MetaIdentifier), 1%nat, 0%nat, 9223372037928571392); ((BN MetaIdentifier), 2%nat, 0%nat, 9223372037928571392); ((BN MetaIdentifier), 3%nat, 0%nat, 9223372037928571392); ((BN AddressType), 0%nat, 0%nat, 9223372037928571392); ((BN AddressType), 1%nat, 0%nat, 9223372037928571392); ((BN AddressType), 2%nat, 0%nat, 9223372037928571392); ((BN AddressType), 3%nat, 0%nat, 9223372037928571392); ((BN AddressType), 4%nat, 0%nat, 9223372037928571392); ((BN TypeNameIdentifier), 0%nat, 0%nat, 9223372038465442320); ((BN TypeNameIdentifier), 1%nat, 0%nat, 9223372038465442320); ((BN TypeNameIdentifier), 2%nat, 0%nat, 9223372038465442320); ((BN HexNumber), 0%nat, 0%nat, 16); ((BN ByteString), 0%nat, 0%nat, 9223372038465442320); ((BN TypeOrEnumLikeIdentifierId), 0%nat, 0%nat, 9223372038465442320)];
[((BN RemainingTypes), 3%nat, 2%nat, 9223372037928571392)];
[((BN RemainingTypes), 5%nat, 2%nat, 9223372037928571392)];
[((BN AddressType), 0%nat, 2%nat, 9668428394861230884); ((BN AddressType), 1%nat, 2%nat, 9668428394861230884); ((BN AddressType), 2%nat, 2%nat, 9668428394861230884); ((BN AddressType), 3%nat, 2%nat, 9668428394861230884); ((BN AddressType), 4%nat, 2%nat, 9668428394861230884); ((BN SpecialId), 0%nat, 0%nat, 1073741824)];
[((BN FunctionSignature), 0%nat, 2%nat, 9223372037928555008); ((BN FunctionSignature), 1%nat, 2%nat, 9223372037928555008); ((BN FunctionSignature), 0%nat, 0%nat, 9223372037928555008); ((BN FunctionSignature), 1%nat, 0%nat, 9223372037928555008); ((BN RemainingTypes), 0%nat, 0%nat, 9223372037928571392); ((BN RemainingTypes), 1%nat, 0%nat, 9223372037928571392); ((BN RemainingTypes), 2%nat, 0%nat, 9223372037928571392); ((BN RemainingTypes), 3%nat, 0%nat, 9223372037928571392); ((BN RemainingTypes), 4%nat, 0%nat, 9223372037928571392); ((BN RemainingTypes), 5%nat, 0%nat, 9223372037928571392); ((BN RemainingTypes), 6%nat, 0%nat, 9223372037928571392); ((BN MetaIdentifier), 0%nat, 0%nat, 9668111434663383808); ((BN MetaIdentifier), 1%nat, 0%nat, 9668111434663383808); ((BN MetaIdentifier), 2%nat, 0%nat, 9668111434663383808); ((BN MetaIdentifier), 3%nat, 0%nat, 9668111434663383808); ((BN AddressType), 0%nat, 0%nat, 9223372037928571392); ((BN AddressType), 1%nat, 0%nat, 9223372037928571392); ((BN AddressType), 2%nat, 0%nat, 9223372037928571392); ((BN AddressType), 3%nat, 0%nat, 9223372037928571392); ((BN AddressType), 4%nat, 0%nat, 9223372037928571392); ((BN TemplateTypeId), 0%nat, 0%nat, 9223372037928571392); ((BN TypeNameIdentifier), 0%nat, 0%nat, 9668111435200254736); ((BN TypeNameIdentifier), 1%nat, 0%nat, 9668111435200254736); ((BN TypeNameIdentifier), 2%nat, 0%nat, 9668111435200254736); ((BN HexNumber), 0%nat, 0%nat, 16); ((BN ByteString), 0%nat, 0%nat, 9668111435200254736); ((BN TypeOrEnumLikeIdentifierId), 0%nat, 0%nat, 9668111435200254736)];
[((BN TypeArgument), 0%nat, 2%nat, 9668428394861230884)];
[((BN TypeArgument), 4%nat, 2%nat, 9668428394861230884); ((BN TypeMapValue), 0%nat, 0%nat, 9668428394861230884); ((BN TypeMapValue), 1%nat, 0%nat, 9668428394861230884); ((BN TypeMapValue), 2%nat, 0%nat, 9668428394861230884); ((BN TypeMapValue), 3%nat, 0%nat, 9668428394861230884); ((BN MetaIdentifier), 0%nat, 0%nat, 9668428394861230884); ((BN MetaIdentifier), 1%nat, 0%nat, 9668428394861230884); ((BN MetaIdentifier), 2%nat, 0%nat, 9668428394861230884); ((BN MetaIdentifier), 3%nat, 0%nat, 9668428394861230884); ((BN AddressType), 0%nat, 0%nat, 9668428394861230884); ((BN AddressType), 1%nat, 0%nat, 9668428394861230884); ((BN AddressType), 2%nat, 0%nat, 9668428394861230884); ((BN AddressType), 3%nat, 0%nat, 9668428394861230884); ((BN AddressType), 4%nat, 0%nat, 9668428394861230884); ((BN TypeNameIdentifier), 0%nat, 0%nat, 9668428395398101812); ((BN TypeNameIdentifier), 1%nat, 0%nat, 9668428395398101812); ((BN TypeNameIdentifier), 2%nat, 0%nat, 9668428395398101812); ((BN HexNumber), 0%nat, 0%nat, 16); ((BN ByteString), 0%nat, 0%nat, 9668428395398101812); ((BN TypeOrEnumLikeIdentifierId), 0%nat, 0%nat, 9668428395398101812)];
[((BN AddressTypeFieldList), 1%nat, 2%nat, 9223372037928517632); ((BP (Nt NextAddressTypeField)), 1%nat, 1%nat, 9223372037928521728); ((BN NextAddressTypeField), 0%nat, 0%nat, 9223372037928521728)];
[((BP (Nt NextAddressTypeField)), 0%nat, 1%nat, 9223372037928521728)];
[((BN AddressTypeField), 0%nat, 2%nat, 9223372037928521728)];
[((BN NextAddressTypeField), 0%nat, 2%nat, 9223372037928521728)];
[((BN TypeMapKey), 1%nat, 2%nat, 9379881057437876480)];
[((BN TypeMapKey), 2%nat, 2%nat, 9379881057437876480)];
[((BN TypeMapValue), 1%nat, 2%nat, 9668428394861230884); ((BN TypeMapValue), 0%nat, 0%nat, 9668428394861230884); ((BN TypeMapValue), 1%nat, 0%nat, 9668428394861230884); ((BN TypeMapValue), 2%nat, 0%nat, 9668428394861230884); ((BN TypeMapValue), 3%nat, 0%nat, 9668428394861230884); ((BN MetaIdentifier), 0%nat, 0%nat, 9668428394861230884); ((BN MetaIdentifier), 1%nat, 0%nat, 9668428394861230884); ((BN MetaIdentifier), 2%nat, 0%nat, 9668428394861230884); ((BN MetaIdentifier), 3%nat, 0%nat, 9668428394861230884); ((BN AddressType), 0%nat, 0%nat, 9668428394861230884); ((BN AddressType), 1%nat, 0%nat, 9668428394861230884); ((BN AddressType), 2%nat, 0%nat, 9668428394861230884); ((BN AddressType), 3%nat, 0%nat, 9668428394861230884); ((BN AddressType), 4%nat, 0%nat, 9668428394861230884); ((BN TypeNameIdentifier), 0%nat, 0%nat, 9668428395398101812); ((BN TypeNameIdentifier), 1%nat, 0%nat, 9668428395398101812); ((BN TypeNameIdentifier), 2%nat, 0%nat, 9668428395398101812); ((BN HexNumber), 0%nat, 0%nat, 16); ((BN ByteString), 0%nat, 0%nat, 9668428395398101812); ((BN TypeOrEnumLikeIdentifierId), 0%nat, 0%nat, 9668428395398101812)];
[((BN TypeMapValue), 2%nat, 2%nat, 9668428394861230884)];
[((BN TypeMapValueArguments), 0%nat, 2%nat, 9379881057437876992)];
[((BN TypeMapValueArguments), 2%nat, 2%nat, 9379881057437876992); ((BN TypeMapValue), 0%nat, 0%nat, 9379881057437876992); ((BN TypeMapValue), 1%nat, 0%nat, 9379881057437876992); ((BN TypeMapValue), 2%nat, 0%nat, 9379881057437876992); ((BN TypeMapValue), 3%nat, 0%nat, 9379881057437876992); ((BN MetaIdentifier), 0%nat, 0%nat, 9379881057437876992); ((BN MetaIdentifier), 1%nat, 0%nat, 9379881057437876992); ((BN MetaIdentifier), 2%nat, 0%nat, 9379881057437876992); ((BN MetaIdentifier), 3%nat, 0%nat, 9379881057437876992); ((BN AddressType), 0%nat, 0%nat, 9379881057437876992); ((BN AddressType), 1%nat, 0%nat, 9379881057437876992); ((BN AddressType), 2%nat, 0%nat, 9379881057437876992); ((BN AddressType), 3%nat, 0%nat, 9379881057437876992); ((BN AddressType), 4%nat, 0%nat, 9379881057437876992); ((BN TypeNameIdentifier), 0%nat, 0%nat, 9379881057974747920); ((BN TypeNameIdentifier), 1%nat, 0%nat, 9379881057974747920); ((BN TypeNameIdentifier), 2%nat, 0%nat, 9379881057974747920); ((BN HexNumber), 0%nat, 0%nat, 16); ((BN ByteString), 0%nat, 0%nat, 9379881057974747920); ((BN TypeOrEnumLikeIdentifierId), 0%nat, 0%nat, 9379881057974747920)];
[((BN Program), 0%nat, 2%nat, 9223372036854775808); ((BN Program), 1%nat, 2%nat, 9223372036854775808); ((BN Program), 2%nat, 2%nat, 9223372036854775808); ((BN Program), 3%nat, 2%nat, 9223372036854775808); ((BN ContractDefinition), 0%nat, 0%nat, 9223372036854775808); ((BN ContractDefinition), 1%nat, 0%nat, 9223372036854775808); ((BN ContractDefinition), 2%nat, 0%nat, 9223372036854775808); ((BN ContractDefinition), 3%nat, 0%nat, 9223372036854775808); ((BN ContractDefinition), 4%nat, 0%nat, 9223372036854775808); ((BN ContractDefinition), 5%nat, 0%nat, 9223372036854775808); ((BN ContractDefinition), 6%nat, 0%nat, 9223372036854775808); ((BN ContractDefinition), 7%nat, 0%nat, 9223372036854775808); ((BN LibraryDefinition), 0%nat, 0%nat, 8589934592); ((BN LibraryDefinition), 1%nat, 0%nat, 8589934592); ((BN ImportDeclarations), 0%nat, 0%nat, 8640266240); ((BN ImportDeclarations), 1%nat, 0%nat, 8640266240)];
[((BN LibraryDefinition), 0%nat, 2%nat, 9223372045444710400); ((BN LibraryDefinition), 1%nat, 2%nat, 9223372045444710400); ((BP (Nt LibrarySingleDefinition)), 0%nat, 0%nat, 9223407229883908096); ((BP (Nt LibrarySingleDefinition)), 1%nat, 0%nat, 9223407229883908096); ((BN LibrarySingleDefinition), 0%nat, 0%nat, 9223407229883908096); ((BN LibrarySingleDefinition), 1%nat, 0%nat, 9223407229883908096); ((BN LibrarySingleDefinition), 2%nat, 0%nat, 9223407229883908096); ((BN LibrarySingleDefinition), 3%nat, 0%nat, 9223407229883908096)];
[((BN LibrarySingleDefinition), 0%nat, 2%nat, 9223407229883908096); ((BN LibrarySingleDefinition), 1%nat, 2%nat, 9223407229883908096); ((BN TypeAnnotation), 0%nat, 0%nat, 32768)];
[((BN LibrarySingleDefinition), 2%nat, 2%nat, 9223407229883908096); ((BN LibrarySingleDefinition), 3%nat, 2%nat, 9223407229883908096)];
[((BN TypedIdentifier), 0%nat, 2%nat, 9223372036854813184)];
[((BN TypeAnnotation), 0%nat, 2%nat, 9223372036854813184)];
[((BN TypeAlternativeClause), 0%nat, 2%nat, 9223407229883908128); ((BN TypeAlternativeClause), 1%nat, 2%nat, 9223407229883908128)];
[((BN TypeMapValueAllowingTypeArguments), 0%nat, 2%nat, 9223372036854776320); ((BP (Nt TypeMapValueArguments)), 1%nat, 1%nat, 9379881057437876992); ((BN TypeMapValueArguments), 0%nat, 0%nat, 9379881057437876992); ((BN TypeMapValueArguments), 1%nat, 0%nat, 9379881057437876992); ((BN TypeMapValueArguments), 2%nat, 0%nat, 9379881057437876992); ((BN MetaIdentifier), 0%nat, 0%nat, 9379881057437876992); ((BN MetaIdentifier), 1%nat, 0%nat, 9379881057437876992); ((BN MetaIdentifier), 2%nat, 0%nat, 9379881057437876992); ((BN MetaIdentifier), 3%nat, 0%nat, 9379881057437876992); ((BN TypeNameIdentifier), 0%nat, 0%nat, 9379881057437877008); ((BN TypeNameIdentifier), 1%nat, 0%nat, 9379881057437877008); ((BN TypeNameIdentifier), 2%nat, 0%nat, 9379881057437877008); ((BN HexNumber), 0%nat, 0%nat, 16); ((BN ByteString), 0%nat, 0%nat, 9379881057437877008); ((BN TypeOrEnumLikeIdentifierId), 0%nat, 0%nat, 9379881057437877008)];
[((BP (Nt TypeMapValueArguments)), 0%nat, 1%nat, 9379881057437876992)];
[((BN ContractTypeArguments), 0%nat, 2%nat, 9478142514511749412)];
[((BN ContractTypeArguments), 1%nat, 2%nat, 9478142514511749412); ((BP (Nt TypeArgument)), 1%nat, 1%nat, 444739396734814464); ((BN TypeArgument), 0%nat, 0%nat, 444739396734814464); ((BN TypeArgument), 1%nat, 0%nat, 444739396734814464); ((BN TypeArgument), 2%nat, 0%nat, 444739396734814464); ((BN TypeArgument), 3%nat, 0%nat, 444739396734814464); ((BN TypeArgument), 4%nat, 0%nat, 444739396734814464); ((BN MetaIdentifier), 0%nat, 0%nat, 444739396734814464); ((BN MetaIdentifier), 1%nat, 0%nat, 444739396734814464); ((BN MetaIdentifier), 2%nat, 0%nat, 444739396734814464); ((BN MetaIdentifier), 3%nat, 0%nat, 444739396734814464); ((BN TemplateTypeId), 0%nat, 0%nat, 444739396734814464); ((BN AddressType), 0%nat, 0%nat, 444739396734814464); ((BN AddressType), 1%nat, 0%nat, 444739396734814464); ((BN AddressType), 2%nat, 0%nat, 444739396734814464); ((BN AddressType), 3%nat, 0%nat, 444739396734814464); ((BN AddressType), 4%nat, 0%nat, 444739396734814464); ((BN TypeNameIdentifier), 0%nat, 0%nat, 444739397271685392); ((BN TypeNameIdentifier), 1%nat, 0%nat, 444739397271685392); ((BN TypeNameIdentifier), 2%nat, 0%nat, 444739397271685392); ((BN HexNumber), 0%nat, 0%nat, 16); ((BN ByteString), 0%nat, 0%nat, 444739397271685392); ((BN TypeOrEnumLikeIdentifierId), 0%nat, 0%nat, 444739397271685392)];
[((BN FullExpression), 0%nat, 2%nat, 9223688998126362660); ((BN FullExpression), 1%nat, 2%nat, 9223688998126362660); ((BN TypeAnnotation), 0%nat, 0%nat, 32768)];
[((BN FullExpression), 2%nat, 2%nat, 9223688998126362660); ((BN RegularId), 0%nat, 0%nat, 8)];
[((BN FullExpression), 3%nat, 2%nat, 9223688998126362660); ((BP (Nt VariableIdentifier)), 1%nat, 1%nat, 9478142514511749156); ((BN VariableIdentifier), 0%nat, 0%nat, 9478142514511749156); ((BN VariableIdentifier), 1%nat, 0%nat, 9478142514511749156); ((BN VariableIdentifier), 2%nat, 0%nat, 9478142514511749156); ((BN RegularId), 0%nat, 0%nat, 9478142514511749156); ((BN SpecialId), 0%nat, 0%nat, 9478142514511749156); ((BN TypeNameIdentifier), 0%nat, 0%nat, 16); ((BN TypeNameIdentifier), 1%nat, 0%nat, 16); ((BN TypeNameIdentifier), 2%nat, 0%nat, 16); ((BN ByteString), 0%nat, 0%nat, 16); ((BN TypeOrEnumLikeIdentifierId), 0%nat, 0%nat, 16)];
[((BP (Nt VariableIdentifier)), 0%nat, 1%nat, 9478142514511749668)];
[((BN FullExpression), 5%nat, 2%nat, 9223688998126362660); ((BN FullExpression), 6%nat, 2%nat, 9223688998126362660); ((BN BuiltinArguments), 0%nat, 0%nat, 9478142514511749156); ((BN BuiltinArguments), 1%nat, 0%nat, 9478142514511749156); ((BN BuiltinArguments), 2%nat, 0%nat, 9478142514511749156); ((BN ContractTypeArguments), 0%nat, 0%nat, 254453516385386752); ((BN ContractTypeArguments), 1%nat, 0%nat, 254453516385386752); ((BN VariableIdentifier), 0%nat, 0%nat, 9478142514511749156); ((BN VariableIdentifier), 1%nat, 0%nat, 9478142514511749156); ((BN VariableIdentifier), 2%nat, 0%nat, 9478142514511749156); ((BN RegularId), 0%nat, 0%nat, 9478142514511749156); ((BN SpecialId), 0%nat, 0%nat, 9478142514511749156); ((BN TypeNameIdentifier), 0%nat, 0%nat, 16); ((BN TypeNameIdentifier), 1%nat, 0%nat, 16); ((BN TypeNameIdentifier), 2%nat, 0%nat, 16); ((BN ByteString), 0%nat, 0%nat, 16); ((BN TypeOrEnumLikeIdentifierId), 0%nat, 0%nat, 16)];
[((BN FullExpression), 7%nat, 2%nat, 9223688998126362660); ((BN FullExpression), 8%nat, 2%nat, 9223688998126362660); ((BP (Nt NextMessageEntry)), 0%nat, 0%nat, 2052); ((BP (Nt NextMessageEntry)), 1%nat, 0%nat, 2052); ((BN NextMessageEntry), 0%nat, 0%nat, 2052)];
[((BN FullExpression), 9%nat, 2%nat, 9223688998126362660)];
[((BN FullExpression), 11%nat, 2%nat, 9223688998126362660); ((BP (Nt VariableIdentifier)), 1%nat, 1%nat, 9478142514511749156); ((BN VariableIdentifier), 0%nat, 0%nat, 9478142514511749156); ((BN VariableIdentifier), 1%nat, 0%nat, 9478142514511749156); ((BN VariableIdentifier), 2%nat, 0%nat, 9478142514511749156); ((BN RegularId), 0%nat, 0%nat, 9478142514511749156); ((BN SpecialId), 0%nat, 0%nat, 9478142514511749156); ((BN TypeNameIdentifier), 0%nat, 0%nat, 16); ((BN TypeNameIdentifier), 1%nat, 0%nat, 16); ((BN TypeNameIdentifier), 2%nat, 0%nat, 16); ((BN ByteString), 0%nat, 0%nat, 16); ((BN TypeOrEnumLikeIdentifierId), 0%nat, 0%nat, 16)];
[((BN FullExpression), 12%nat, 2%nat, 9223688998126362660); ((BN FullExpression), 13%nat, 2%nat, 9223688998126362660); ((BP (Nt VariableIdentifier)), 0%nat, 0%nat, 9478142514511749156); ((BP (Nt VariableIdentifier)), 1%nat, 0%nat, 9478142514511749156); ((BN VariableIdentifier), 0%nat, 0%nat, 9478142514511749156); ((BN VariableIdentifier), 1%nat, 0%nat, 9478142514511749156); ((BN VariableIdentifier), 2%nat, 0%nat, 9478142514511749156); ((BN RegularId), 0%nat, 0%nat, 9478142514511749156); ((BN SpecialId), 0%nat, 0%nat, 9478142514511749156); ((BN TypeNameIdentifier), 0%nat, 0%nat, 16); ((BN TypeNameIdentifier), 1%nat, 0%nat, 16); ((BN TypeNameIdentifier), 2%nat, 0%nat, 16); ((BN ByteString), 0%nat, 0%nat, 16); ((BN TypeOrEnumLikeIdentifierId), 0%nat, 0%nat, 16)];
[((BN FullExpression), 14%nat, 2%nat, 9223688998126362660)];
[((BN FullExpression), 15%nat, 2%nat, 9223688998126362660); ((BP (Nt TypeArgument)), 0%nat, 0%nat, 9668428394861175076); ((BP (Nt TypeArgument)), 1%nat, 0%nat, 9668428394861175076); ((BN TypeArgument), 0%nat, 0%nat, 9668428394861175076); ((BN TypeArgument), 1%nat, 0%nat, 9668428394861175076); ((BN TypeArgument), 2%nat, 0%nat, 9668428394861175076); ((BN TypeArgument), 3%nat, 0%nat, 9668428394861175076); ((BN TypeArgument), 4%nat, 0%nat, 9668428394861175076); ((BN MetaIdentifier), 0%nat, 0%nat, 9668428394861175076); ((BN MetaIdentifier), 1%nat, 0%nat, 9668428394861175076); ((BN MetaIdentifier), 2%nat, 0%nat, 9668428394861175076); ((BN MetaIdentifier), 3%nat, 0%nat, 9668428394861175076); ((BN TemplateTypeId), 0%nat, 0%nat, 9668428394861175076); ((BN AddressType), 0%nat, 0%nat, 9668428394861175076); ((BN AddressType), 1%nat, 0%nat, 9668428394861175076); ((BN AddressType), 2%nat, 0%nat, 9668428394861175076); ((BN AddressType), 3%nat, 0%nat, 9668428394861175076); ((BN AddressType), 4%nat, 0%nat, 9668428394861175076); ((BN TypeNameIdentifier), 0%nat, 0%nat, 9668428395398046004); ((BN TypeNameIdentifier), 1%nat, 0%nat, 9668428395398046004); ((BN TypeNameIdentifier), 2%nat, 0%nat, 9668428395398046004); ((BN HexNumber), 0%nat, 0%nat, 16); ((BN ByteString), 0%nat, 0%nat, 9668428395398046004); ((BN TypeOrEnumLikeIdentifierId), 0%nat, 0%nat, 9668428395398046004)];
[((BN MetaIdentifier), 1%nat, 2%nat, 9478142514511750180); ((BN VariableIdentifier), 2%nat, 2%nat, 9478142514511749156); ((BN TypeNameIdentifier), 0%nat, 0%nat, 9478142514511750180); ((BN TypeNameIdentifier), 1%nat, 0%nat, 9478142514511750180); ((BN TypeNameIdentifier), 2%nat, 0%nat, 9478142514511750180); ((BN RegularId), 0%nat, 0%nat, 9478142514511749156); ((BN ByteString), 0%nat, 0%nat, 9478142514511750180); ((BN TypeOrEnumLikeIdentifierId), 0%nat, 0%nat, 9478142514511750180)];
[((BN ValueLiteral), 0%nat, 2%nat, 9223688998126364708)];
[((BN ValueLiteral), 3%nat, 2%nat, 9223688998126364708); ((BN TypeMapValue), 0%nat, 0%nat, 9223688998126364708); ((BN TypeMapValue), 1%nat, 0%nat, 9223688998126364708); ((BN TypeMapValue), 2%nat, 0%nat, 9223688998126364708); ((BN TypeMapValue), 3%nat, 0%nat, 9223688998126364708); ((BN MetaIdentifier), 0%nat, 0%nat, 9223688998126364708); ((BN MetaIdentifier), 1%nat, 0%nat, 9223688998126364708); ((BN MetaIdentifier), 2%nat, 0%nat, 9223688998126364708); ((BN MetaIdentifier), 3%nat, 0%nat, 9223688998126364708); ((BN AddressType), 0%nat, 0%nat, 9223688998126364708); ((BN AddressType), 1%nat, 0%nat, 9223688998126364708); ((BN AddressType), 2%nat, 0%nat, 9223688998126364708); ((BN AddressType), 3%nat, 0%nat, 9223688998126364708); ((BN AddressType), 4%nat, 0%nat, 9223688998126364708); ((BN TypeNameIdentifier), 0%nat, 0%nat, 9223688998663235636); ((BN TypeNameIdentifier), 1%nat, 0%nat, 9223688998663235636); ((BN TypeNameIdentifier), 2%nat, 0%nat, 9223688998663235636); ((BN HexNumber), 0%nat, 0%nat, 16); ((BN ByteString), 0%nat, 0%nat, 9223688998663235636); ((BN TypeOrEnumLikeIdentifierId), 0%nat, 0%nat, 9223688998663235636)];
[((BN PatternMatchExpressionClause), 0%nat, 2%nat, 9223372037928517664)];
[((BN Pattern), 3%nat, 2%nat, 9223372036854784512); ((BP (Nt ArgumentPattern)), 1%nat, 1%nat, 9415901058365924096); ((BN ArgumentPattern), 0%nat, 0%nat, 9415901058365924096); ((BN ArgumentPattern), 1%nat, 0%nat, 9415901058365924096); ((BN ArgumentPattern), 2%nat, 0%nat, 9415901058365924096); ((BN ArgumentPattern), 3%nat, 0%nat, 9415901058365924096); ((BN RegularId), 0%nat, 0%nat, 9415901058365924096); ((BN MetaIdentifier), 0%nat, 0%nat, 9415901058365924096); ((BN MetaIdentifier), 1%nat, 0%nat, 9415901058365924096); ((BN MetaIdentifier), 2%nat, 0%nat, 9415901058365924096); ((BN MetaIdentifier), 3%nat, 0%nat, 9415901058365924096); ((BN TypeNameIdentifier), 0%nat, 0%nat, 9415901058365924112); ((BN TypeNameIdentifier), 1%nat, 0%nat, 9415901058365924112); ((BN TypeNameIdentifier), 2%nat, 0%nat, 9415901058365924112); ((BN HexNumber), 0%nat, 0%nat, 16); ((BN ByteString), 0%nat, 0%nat, 9415901058365924112); ((BN TypeOrEnumLikeIdentifierId), 0%nat, 0%nat, 9415901058365924112)];
[((BP (Nt ArgumentPattern)), 0%nat, 1%nat, 9415901058365924096)];
[((BN ArgumentPattern), 3%nat, 2%nat, 9415901058365924096)];
[((BN NextMessageEntry), 0%nat, 2%nat, 9223372036854777860)];
[((BN MessageEntry), 0%nat, 2%nat, 9223372036854777860); ((BN MessageEntry), 1%nat, 2%nat, 9223372036854777860); ((BN ValueLiteral), 0%nat, 0%nat, 9223372036854777860); ((BN ValueLiteral), 1%nat, 0%nat, 9223372036854777860); ((BN ValueLiteral), 2%nat, 0%nat, 9223372036854777860); ((BN ValueLiteral), 3%nat, 0%nat, 9223372036854777860); ((BN VariableIdentifier), 0%nat, 0%nat, 9223372036854777860); ((BN VariableIdentifier), 1%nat, 0%nat, 9223372036854777860); ((BN VariableIdentifier), 2%nat, 0%nat, 9223372036854777860); ((BN TypeNameIdentifier), 0%nat, 0%nat, 4503599627370512); ((BN TypeNameIdentifier), 1%nat, 0%nat, 4503599627370512); ((BN TypeNameIdentifier), 2%nat, 0%nat, 4503599627370512); ((BN HexNumber), 0%nat, 0%nat, 9223372036854777860); ((BN StringLiteral), 0%nat, 0%nat, 9223372036854777860); ((BN RegularId), 0%nat, 0%nat, 9223372036854777860); ((BN SpecialId), 0%nat, 0%nat, 9223372036854777860); ((BN ByteString), 0%nat, 0%nat, 4503599627370512); ((BN TypeOrEnumLikeIdentifierId), 0%nat, 0%nat, 4503599627370512)];
[((BN Statement), 0%nat, 2%nat, 9223372037928517668); ((BN Statement), 4%nat, 2%nat, 9223372037928517668); ((BN Statement), 5%nat, 2%nat, 9223372037928517668); ((BN Statement), 6%nat, 2%nat, 9223372037928517668); ((BN Statement), 7%nat, 2%nat, 9223372037928517668); ((BN RemoteFetchStatement), 0%nat, 2%nat, 9223372037928517668); ((BN RemoteFetchStatement), 1%nat, 2%nat, 9223372037928517668); ((BN RemoteFetchStatement), 2%nat, 2%nat, 9223372037928517668); ((BN RemoteFetchStatement), 3%nat, 2%nat, 9223372037928517668); ((BN RemoteFetchStatement), 4%nat, 2%nat, 9223372037928517668); ((BN VariableIdentifier), 0%nat, 0%nat, 9223372037928517668); ((BN VariableIdentifier), 1%nat, 0%nat, 9223372037928517668); ((BN VariableIdentifier), 2%nat, 0%nat, 9223372037928517668); ((BN RegularId), 0%nat, 0%nat, 9223372037928517732); ((BN SpecialId), 0%nat, 0%nat, 9223372037928517668); ((BN TypeNameIdentifier), 0%nat, 0%nat, 16); ((BN TypeNameIdentifier), 1%nat, 0%nat, 16); ((BN TypeNameIdentifier), 2%nat, 0%nat, 16); ((BN ByteString), 0%nat, 0%nat, 16); ((BN TypeOrEnumLikeIdentifierId), 0%nat, 0%nat, 16)];
[((BN Statement), 2%nat, 2%nat, 9223372037928517668); ((BN VariableIdentifier), 0%nat, 0%nat, 9223372037928517668); ((BN VariableIdentifier), 1%nat, 0%nat, 9223372037928517668); ((BN VariableIdentifier), 2%nat, 0%nat, 9223372037928517668); ((BN RegularId), 0%nat, 0%nat, 9223372037928517668); ((BN SpecialId), 0%nat, 0%nat, 9223372037928517668); ((BN TypeNameIdentifier), 0%nat, 0%nat, 16); ((BN TypeNameIdentifier), 1%nat, 0%nat, 16); ((BN TypeNameIdentifier), 2%nat, 0%nat, 16); ((BN ByteString), 0%nat, 0%nat, 16); ((BN TypeOrEnumLikeIdentifierId), 0%nat, 0%nat, 16)];
[((BN Statement), 3%nat, 2%nat, 9223372037928517668); ((BN FullExpression), 0%nat, 0%nat, 9223372037928517668); ((BN FullExpression), 1%nat, 0%nat, 9223372037928517668); ((BN FullExpression), 2%nat, 0%nat, 9223372037928517668); ((BN FullExpression), 3%nat, 0%nat, 9223372037928517668); ((BN FullExpression), 4%nat, 0%nat, 9223372037928517668); ((BN FullExpression), 5%nat, 0%nat, 9223372037928517668); ((BN FullExpression), 6%nat, 0%nat, 9223372037928517668); ((BN FullExpression), 7%nat, 0%nat, 9223372037928517668); ((BN FullExpression), 8%nat, 0%nat, 9223372037928517668); ((BN FullExpression), 9%nat, 0%nat, 9223372037928517668); ((BN FullExpression), 10%nat, 0%nat, 9223372037928517668); ((BN FullExpression), 11%nat, 0%nat, 9223372037928517668); ((BN FullExpression), 12%nat, 0%nat, 9223372037928517668); ((BN FullExpression), 13%nat, 0%nat, 9223372037928517668); ((BN FullExpression), 14%nat, 0%nat, 9223372037928517668); ((BN FullExpression), 15%nat, 0%nat, 9223372037928517668); ((BN VariableIdentifier), 0%nat, 0%nat, 9477825554313904164); ((BN VariableIdentifier), 1%nat, 0%nat, 9477825554313904164); ((BN VariableIdentifier), 2%nat, 0%nat, 9477825554313904164); ((BN AtomicExpression), 0%nat, 0%nat, 9223372037928517668); ((BN AtomicExpression), 1%nat, 0%nat, 9223372037928517668); ((BN MetaIdentifier), 0%nat, 0%nat, 9477825554313905188); ((BN MetaIdentifier), 1%nat, 0%nat, 9477825554313905188); ((BN MetaIdentifier), 2%nat, 0%nat, 9477825554313905188); ((BN MetaIdentifier), 3%nat, 0%nat, 9477825554313905188); ((BN RegularId), 0%nat, 0%nat, 9477825554313904164); ((BN SpecialId), 0%nat, 0%nat, 9477825554313904164); ((BN TypeNameIdentifier), 0%nat, 0%nat, 9482329153941275700); ((BN TypeNameIdentifier), 1%nat, 0%nat, 9482329153941275700); ((BN TypeNameIdentifier), 2%nat, 0%nat, 9482329153941275700); ((BN ValueLiteral), 0%nat, 0%nat, 9223372037928517668); ((BN ValueLiteral), 1%nat, 0%nat, 9223372037928517668); ((BN ValueLiteral), 2%nat, 0%nat, 9223372037928517668); ((BN ValueLiteral), 3%nat, 0%nat, 9223372037928517668); ((BN HexNumber), 0%nat, 0%nat, 9223372037928517684); ((BN ByteString), 0%nat, 0%nat, 9482329153941275700); ((BN TypeOrEnumLikeIdentifierId), 0%nat, 0%nat, 9482329153941275700); ((BN StringLiteral), 0%nat, 0%nat, 9223372037928517668)];
[((BN Statement), 8%nat, 2%nat, 9223372037928517668); ((BP (Nt MapAccess)), 1%nat, 1%nat, 262208); ((BN MapAccess), 0%nat, 0%nat, 262208)];
[((BP (Nt MapAccess)), 0%nat, 1%nat, 9223372037928779876)];
[((BN Statement), 9%nat, 2%nat, 9223372037928517668); ((BP (Nt MapAccess)), 0%nat, 0%nat, 9223372037928517732); ((BP (Nt MapAccess)), 1%nat, 0%nat, 9223372037928517732); ((BN MapAccess), 0%nat, 0%nat, 9223372037928517732)];
[((BN Statement), 11%nat, 2%nat, 9223372037928517668)];
[((BN Statement), 12%nat, 2%nat, 9223372037928517668)];
[((BN Statement), 14%nat, 2%nat, 9223372037928517668)];
[((BN Statement), 15%nat, 2%nat, 9223372037928517668)];
[((BN Statement), 17%nat, 2%nat, 9223372037928517668); ((BP (Nt VariableIdentifier)), 1%nat, 1%nat, 9477825554313904164); ((BN VariableIdentifier), 0%nat, 0%nat, 9477825554313904164); ((BN VariableIdentifier), 1%nat, 0%nat, 9477825554313904164); ((BN VariableIdentifier), 2%nat, 0%nat, 9477825554313904164); ((BN RegularId), 0%nat, 0%nat, 9477825554313904164); ((BN SpecialId), 0%nat, 0%nat, 9477825554313904164); ((BN TypeNameIdentifier), 0%nat, 0%nat, 16); ((BN TypeNameIdentifier), 1%nat, 0%nat, 16); ((BN TypeNameIdentifier), 2%nat, 0%nat, 16); ((BN ByteString), 0%nat, 0%nat, 16); ((BN TypeOrEnumLikeIdentifierId), 0%nat, 0%nat, 16)];
[((BN Statement), 18%nat, 2%nat, 9223372037928517668); ((BN ComponentId), 0%nat, 0%nat, 9223372037928517668); ((BN ComponentId), 1%nat, 0%nat, 9223372037928517668); ((BN TypeNameIdentifier), 0%nat, 0%nat, 9223372037928517668); ((BN TypeNameIdentifier), 1%nat, 0%nat, 9223372037928517668); ((BN TypeNameIdentifier), 2%nat, 0%nat, 9223372037928517668); ((BN RegularId), 0%nat, 0%nat, 9223372037928517668); ((BN ByteString), 0%nat, 0%nat, 9223372037928517668); ((BN TypeOrEnumLikeIdentifierId), 0%nat, 0%nat, 9223372037928517668)];
[((BN NextStatement), 0%nat, 2%nat, 9223372037928517668)];
[((BN StatementBlock), 1%nat, 2%nat, 9223372037928517664); ((BP (Nt NextStatement)), 1%nat, 1%nat, 9223372037928517668); ((BN NextStatement), 0%nat, 0%nat, 9223372037928517668)];
[((BP (Nt NextStatement)), 0%nat, 1%nat, 9223372037928517668)];
[((BN BlockchainFetchArguments), 0%nat, 2%nat, 9223372037928517668); ((BP (Nt VariableIdentifier)), 1%nat, 1%nat, 254453516385387008); ((BN VariableIdentifier), 0%nat, 0%nat, 254453516385387008); ((BN VariableIdentifier), 1%nat, 0%nat, 254453516385387008); ((BN VariableIdentifier), 2%nat, 0%nat, 254453516385387008); ((BN RegularId), 0%nat, 0%nat, 254453516385387008); ((BN SpecialId), 0%nat, 0%nat, 254453516385387008); ((BN TypeNameIdentifier), 0%nat, 0%nat, 16); ((BN TypeNameIdentifier), 1%nat, 0%nat, 16); ((BN TypeNameIdentifier), 2%nat, 0%nat, 16); ((BN ByteString), 0%nat, 0%nat, 16); ((BN TypeOrEnumLikeIdentifierId), 0%nat, 0%nat, 16)];
[((BN PatternMatchClause), 0%nat, 2%nat, 9223372037928517664); ((BN PatternMatchClause), 1%nat, 2%nat, 9223372037928517664)];
[((BN RemoteFetchStatement), 0%nat, 2%nat, 9223372036854775808); ((BN RemoteFetchStatement), 1%nat, 2%nat, 9223372036854775808); ((BN RemoteFetchStatement), 2%nat, 2%nat, 9223372036854775808); ((BN RemoteFetchStatement), 3%nat, 2%nat, 9223372036854775808); ((BN RemoteFetchStatement), 4%nat, 2%nat, 9223372036854775808)];
[((BN MapAccess), 0%nat, 2%nat, 9223372037928779876)];
[((BN NextParameterPair), 0%nat, 2%nat, 9223372036854780416)];
[((BN ComponentParameters), 0%nat, 2%nat, 9406056978024759296)];
[((BN ComponentParameters), 1%nat, 2%nat, 9406056978024759296); ((BP (Nt NextParameterPair)), 1%nat, 1%nat, 4608); ((BN NextParameterPair), 0%nat, 0%nat, 4608)];
[((BN ComponentParameters), 2%nat, 2%nat, 9406056978024759296); ((BN ComponentParameters), 3%nat, 2%nat, 9406056978024759296); ((BP (Nt NextParameterPair)), 0%nat, 0%nat, 4608); ((BP (Nt NextParameterPair)), 1%nat, 0%nat, 4608); ((BN NextParameterPair), 0%nat, 0%nat, 4608)];
[((BP (Nt NextParameterPair)), 0%nat, 1%nat, 4608)];
[((BN TransitionDefinition), 0%nat, 2%nat, 9223653529011355648); ((BN ComponentParameters), 0%nat, 0%nat, 182403173598625792); ((BN ComponentParameters), 1%nat, 0%nat, 182403173598625792); ((BN ComponentParameters), 2%nat, 0%nat, 182403173598625792); ((BN ComponentParameters), 3%nat, 0%nat, 182403173598625792)];
[((BN ProcedureDefinition), 0%nat, 2%nat, 9223653529011355648); ((BN ComponentParameters), 0%nat, 0%nat, 182403173598625792); ((BN ComponentParameters), 1%nat, 0%nat, 182403173598625792); ((BN ComponentParameters), 2%nat, 0%nat, 182403173598625792); ((BN ComponentParameters), 3%nat, 0%nat, 182403173598625792)];
[((BN ComponentBody), 1%nat, 2%nat, 9223653529011355648)];
[((BN ContractDefinition), 0%nat, 2%nat, 9223372036854775808); ((BN ContractDefinition), 1%nat, 2%nat, 9223372036854775808); ((BN ContractDefinition), 2%nat, 2%nat, 9223372036854775808); ((BN ContractDefinition), 3%nat, 2%nat, 9223372036854775808); ((BN ContractDefinition), 4%nat, 2%nat, 9223372036854775808); ((BN ContractDefinition), 5%nat, 2%nat, 9223372036854775808); ((BN ContractDefinition), 6%nat, 2%nat, 9223372036854775808); ((BN ContractDefinition), 7%nat, 2%nat, 9223372036854775808); ((BN ComponentParameters), 0%nat, 0%nat, 9223653804426133504); ((BN ComponentParameters), 1%nat, 0%nat, 9223653804426133504); ((BN ComponentParameters), 2%nat, 0%nat, 9223653804426133504); ((BN ComponentParameters), 3%nat, 0%nat, 9223653804426133504)];
[((BN ContractField), 0%nat, 2%nat, 9223653803889262592)];
[((BN WithConstraint), 0%nat, 2%nat, 9223653803889262592)];
[((BN ImportedName), 1%nat, 3%nat, 9369739170823536640)];
[((BN ImportDeclarations), 0%nat, 3%nat, 9223372045495042048)];
[((BP (Nt ImportedName)), 1%nat, 2%nat, 9369739170823536640)];
[((BN MetaIdentifier), 1%nat, 3%nat, 9776514785920220964)];
[((BN MetaIdentifier), 2%nat, 3%nat, 9776514785920220964)];
[((BN VariableIdentifier), 2%nat, 3%nat, 9776655523943295916)];
[((BP (Nt TypeArgument)), 1%nat, 2%nat, 9668428394861230884)];
[((BN RemainingTypes), 2%nat, 3%nat, 9223372037928571392)];
[((BN RemainingTypes), 3%nat, 3%nat, 9223372037928571392)];
[((BN RemainingTypes), 5%nat, 3%nat, 9223372037928571392); ((BN RemainingTypes), 0%nat, 0%nat, 9223372037928571392); ((BN RemainingTypes), 1%nat, 0%nat, 9223372037928571392); ((BN RemainingTypes), 2%nat, 0%nat, 9223372037928571392); ((BN RemainingTypes), 3%nat, 0%nat, 9223372037928571392); ((BN RemainingTypes), 4%nat, 0%nat, 9223372037928571392); ((BN RemainingTypes), 5%nat, 0%nat, 9223372037928571392); ((BN RemainingTypes), 6%nat, 0%nat, 9223372037928571392); ((BN MetaIdentifier), 0%nat, 0%nat, 9668111434663383808); ((BN MetaIdentifier), 1%nat, 0%nat, 9668111434663383808); ((BN MetaIdentifier), 2%nat, 0%nat, 9668111434663383808); ((BN MetaIdentifier), 3%nat, 0%nat, 9668111434663383808); ((BN AddressType), 0%nat, 0%nat, 9223372037928571392); ((BN AddressType), 1%nat, 0%nat, 9223372037928571392); ((BN AddressType), 2%nat, 0%nat, 9223372037928571392); ((BN AddressType), 3%nat, 0%nat, 9223372037928571392); ((BN AddressType), 4%nat, 0%nat, 9223372037928571392); ((BN TemplateTypeId), 0%nat, 0%nat, 9223372037928571392); ((BN TypeNameIdentifier), 0%nat, 0%nat, 9668111435200254736); ((BN TypeNameIdentifier), 1%nat, 0%nat, 9668111435200254736); ((BN TypeNameIdentifier), 2%nat, 0%nat, 9668111435200254736); ((BN HexNumber), 0%nat, 0%nat, 16); ((BN ByteString), 0%nat, 0%nat, 9668111435200254736); ((BN TypeOrEnumLikeIdentifierId), 0%nat, 0%nat, 9668111435200254736)];
[((BN AddressType), 0%nat, 3%nat, 9668428394861230884)];
[((BN AddressType), 1%nat, 3%nat, 9668428394861230884); ((BN AddressType), 2%nat, 3%nat, 9668428394861230884); ((BN AddressTypeFieldList), 0%nat, 0%nat, 1073741824); ((BN AddressTypeFieldList), 1%nat, 0%nat, 1073741824); ((BN AddressTypeField), 0%nat, 0%nat, 1073745920)];
[((BN AddressType), 3%nat, 3%nat, 9668428394861230884)];
[((BN AddressType), 4%nat, 3%nat, 9668428394861230884)];
[((BN FunctionSignature), 0%nat, 3%nat, 9223372037928555008)];
[((BN FunctionSignature), 0%nat, 1%nat, 9223372037928555008); ((BN FunctionSignature), 1%nat, 1%nat, 9223372037928555008); ((BN FunctionSignature), 1%nat, 3%nat, 9223372037928555008)];
[((BN TypeArgument), 0%nat, 3%nat, 9668428394861230884)];
[((BN TypeArgument), 4%nat, 3%nat, 9668428394861230884)];
[((BP (Nt NextAddressTypeField)), 1%nat, 2%nat, 9223372037928521728)];
[((BN AddressTypeField), 0%nat, 3%nat, 9223372037928521728); ((BN ScillaType), 0%nat, 0%nat, 9223372037928521728); ((BN ScillaType), 1%nat, 0%nat, 9223372037928521728); ((BN FunctionSignature), 0%nat, 0%nat, 9223372037928521728); ((BN FunctionSignature), 1%nat, 0%nat, 9223372037928521728); ((BN RemainingTypes), 0%nat, 0%nat, 9223372037928538112); ((BN RemainingTypes), 1%nat, 0%nat, 9223372037928538112); ((BN RemainingTypes), 2%nat, 0%nat, 9223372037928538112); ((BN RemainingTypes), 3%nat, 0%nat, 9223372037928538112); ((BN RemainingTypes), 4%nat, 0%nat, 9223372037928538112); ((BN RemainingTypes), 5%nat, 0%nat, 9223372037928538112); ((BN RemainingTypes), 6%nat, 0%nat, 9223372037928538112); ((BN MetaIdentifier), 0%nat, 0%nat, 9668111434663350528); ((BN MetaIdentifier), 1%nat, 0%nat, 9668111434663350528); ((BN MetaIdentifier), 2%nat, 0%nat, 9668111434663350528); ((BN MetaIdentifier), 3%nat, 0%nat, 9668111434663350528); ((BN AddressType), 0%nat, 0%nat, 9223372037928538112); ((BN AddressType), 1%nat, 0%nat, 9223372037928538112); ((BN AddressType), 2%nat, 0%nat, 9223372037928538112); ((BN AddressType), 3%nat, 0%nat, 9223372037928538112); ((BN AddressType), 4%nat, 0%nat, 9223372037928538112); ((BN TemplateTypeId), 0%nat, 0%nat, 9223372037928538112); ((BN TypeNameIdentifier), 0%nat, 0%nat, 9668111435200221456); ((BN TypeNameIdentifier), 1%nat, 0%nat, 9668111435200221456); ((BN TypeNameIdentifier), 2%nat, 0%nat, 9668111435200221456); ((BN HexNumber), 0%nat, 0%nat, 16); ((BN ByteString), 0%nat, 0%nat, 9668111435200221456); ((BN TypeOrEnumLikeIdentifierId), 0%nat, 0%nat, 9668111435200221456)];
[((BN TypeMapKey), 1%nat, 3%nat, 9379881057437876480)];
[((BN TypeMapKey), 2%nat, 3%nat, 9379881057437876480)];
[((BN TypeMapValue), 1%nat, 3%nat, 9668428394861230884)];
[((BN TypeMapValue), 2%nat, 3%nat, 9668428394861230884)];
[((BN TypeMapValueArguments), 0%nat, 3%nat, 9379881057437876992)];
[((BN TypeMapValueArguments), 2%nat, 3%nat, 9379881057437876992)];
[((BN Program), 0%nat, 3%nat, 9223372036854775808)];
[((BN Program), 1%nat, 3%nat, 9223372036854775808); ((BN ContractDefinition), 0%nat, 0%nat, 9223372036854775808); ((BN ContractDefinition), 1%nat, 0%nat, 9223372036854775808); ((BN ContractDefinition), 2%nat, 0%nat, 9223372036854775808); ((BN ContractDefinition), 3%nat, 0%nat, 9223372036854775808); ((BN ContractDefinition), 4%nat, 0%nat, 9223372036854775808); ((BN ContractDefinition), 5%nat, 0%nat, 9223372036854775808); ((BN ContractDefinition), 6%nat, 0%nat, 9223372036854775808); ((BN ContractDefinition), 7%nat, 0%nat, 9223372036854775808)];
[((BN ImportDeclarations), 0%nat, 1%nat, 8640266240); ((BN Program), 2%nat, 3%nat, 9223372036854775808); ((BN Program), 3%nat, 3%nat, 9223372036854775808); ((BN ContractDefinition), 0%nat, 0%nat, 9223372036854775808); ((BN ContractDefinition), 1%nat, 0%nat, 9223372036854775808); ((BN ContractDefinition), 2%nat, 0%nat, 9223372036854775808); ((BN ContractDefinition), 3%nat, 0%nat, 9223372036854775808); ((BN ContractDefinition), 4%nat, 0%nat, 9223372036854775808); ((BN ContractDefinition), 5%nat, 0%nat, 9223372036854775808); ((BN ContractDefinition), 6%nat, 0%nat, 9223372036854775808); ((BN ContractDefinition), 7%nat, 0%nat, 9223372036854775808); ((BN LibraryDefinition), 0%nat, 0%nat, 8589934592); ((BN LibraryDefinition), 1%nat, 0%nat, 8589934592)];
[((BN LibraryDefinition), 1%nat, 3%nat, 9223372045444710400); ((BP (Nt LibrarySingleDefinition)), 1%nat, 1%nat, 9223407229883908096); ((BN LibrarySingleDefinition), 0%nat, 0%nat, 9223407229883908096); ((BN LibrarySingleDefinition), 1%nat, 0%nat, 9223407229883908096); ((BN LibrarySingleDefinition), 2%nat, 0%nat, 9223407229883908096); ((BN LibrarySingleDefinition), 3%nat, 0%nat, 9223407229883908096)];
[((BP (Nt LibrarySingleDefinition)), 0%nat, 1%nat, 9223407229883908096)];
[((BN LibrarySingleDefinition), 0%nat, 3%nat, 9223407229883908096); ((BN FullExpression), 0%nat, 0%nat, 9223407229883908096); ((BN FullExpression), 1%nat, 0%nat, 9223407229883908096); ((BN FullExpression), 2%nat, 0%nat, 9223407229883908096); ((BN FullExpression), 3%nat, 0%nat, 9223407229883908096); ((BN FullExpression), 4%nat, 0%nat, 9223407229883908096); ((BN FullExpression), 5%nat, 0%nat, 9223407229883908096); ((BN FullExpression), 6%nat, 0%nat, 9223407229883908096); ((BN FullExpression), 7%nat, 0%nat, 9223407229883908096); ((BN FullExpression), 8%nat, 0%nat, 9223407229883908096); ((BN FullExpression), 9%nat, 0%nat, 9223407229883908096); ((BN FullExpression), 10%nat, 0%nat, 9223407229883908096); ((BN FullExpression), 11%nat, 0%nat, 9223407229883908096); ((BN FullExpression), 12%nat, 0%nat, 9223407229883908096); ((BN FullExpression), 13%nat, 0%nat, 9223407229883908096); ((BN FullExpression), 14%nat, 0%nat, 9223407229883908096); ((BN FullExpression), 15%nat, 0%nat, 9223407229883908096); ((BN VariableIdentifier), 0%nat, 0%nat, 9477860746269294592); ((BN VariableIdentifier), 1%nat, 0%nat, 9477860746269294592); ((BN VariableIdentifier), 2%nat, 0%nat, 9477860746269294592); ((BN AtomicExpression), 0%nat, 0%nat, 9223407229883908096); ((BN AtomicExpression), 1%nat, 0%nat, 9223407229883908096); ((BN MetaIdentifier), 0%nat, 0%nat, 9477860746269295616); ((BN MetaIdentifier), 1%nat, 0%nat, 9477860746269295616); ((BN MetaIdentifier), 2%nat, 0%nat, 9477860746269295616); ((BN MetaIdentifier), 3%nat, 0%nat, 9477860746269295616); ((BN RegularId), 0%nat, 0%nat, 9477860746269294592); ((BN SpecialId), 0%nat, 0%nat, 9477860746269294592); ((BN TypeNameIdentifier), 0%nat, 0%nat, 9482364345896666128); ((BN TypeNameIdentifier), 1%nat, 0%nat, 9482364345896666128); ((BN TypeNameIdentifier), 2%nat, 0%nat, 9482364345896666128); ((BN ValueLiteral), 0%nat, 0%nat, 9223407229883908096); ((BN ValueLiteral), 1%nat, 0%nat, 9223407229883908096); ((BN ValueLiteral), 2%nat, 0%nat, 9223407229883908096); ((BN ValueLiteral), 3%nat, 0%nat, 9223407229883908096); ((BN HexNumber), 0%nat, 0%nat, 9223407229883908112); ((BN ByteString), 0%nat, 0%nat, 9482364345896666128); ((BN TypeOrEnumLikeIdentifierId), 0%nat, 0%nat, 9482364345896666128); ((BN StringLiteral), 0%nat, 0%nat, 9223407229883908096)];
[((BN LibrarySingleDefinition), 1%nat, 3%nat, 9223407229883908096)];
[((BN LibrarySingleDefinition), 3%nat, 3%nat, 9223407229883908096); ((BP (Nt TypeAlternativeClause)), 0%nat, 0%nat, 9223407229883908128); ((BP (Nt TypeAlternativeClause)), 1%nat, 0%nat, 9223407229883908128); ((BN TypeAlternativeClause), 0%nat, 0%nat, 9223407229883908128); ((BN TypeAlternativeClause), 1%nat, 0%nat, 9223407229883908128)];
[((BN TypeAlternativeClause), 1%nat, 3%nat, 9223407229883908128); ((BP (Nt TypeArgument)), 0%nat, 0%nat, 9668146626618720544); ((BP (Nt TypeArgument)), 1%nat, 0%nat, 9668146626618720544); ((BN TypeArgument), 0%nat, 0%nat, 9668146626618720544); ((BN TypeArgument), 1%nat, 0%nat, 9668146626618720544); ((BN TypeArgument), 2%nat, 0%nat, 9668146626618720544); ((BN TypeArgument), 3%nat, 0%nat, 9668146626618720544); ((BN TypeArgument), 4%nat, 0%nat, 9668146626618720544); ((BN MetaIdentifier), 0%nat, 0%nat, 9668146626618720544); ((BN MetaIdentifier), 1%nat, 0%nat, 9668146626618720544); ((BN MetaIdentifier), 2%nat, 0%nat, 9668146626618720544); ((BN MetaIdentifier), 3%nat, 0%nat, 9668146626618720544); ((BN TemplateTypeId), 0%nat, 0%nat, 9668146626618720544); ((BN AddressType), 0%nat, 0%nat, 9668146626618720544); ((BN AddressType), 1%nat, 0%nat, 9668146626618720544); ((BN AddressType), 2%nat, 0%nat, 9668146626618720544); ((BN AddressType), 3%nat, 0%nat, 9668146626618720544); ((BN AddressType), 4%nat, 0%nat, 9668146626618720544); ((BN TypeNameIdentifier), 0%nat, 0%nat, 9668146627155591472); ((BN TypeNameIdentifier), 1%nat, 0%nat, 9668146627155591472); ((BN TypeNameIdentifier), 2%nat, 0%nat, 9668146627155591472); ((BN HexNumber), 0%nat, 0%nat, 16); ((BN ByteString), 0%nat, 0%nat, 9668146627155591472); ((BN TypeOrEnumLikeIdentifierId), 0%nat, 0%nat, 9668146627155591472)];
[((BP (Nt TypeMapValueArguments)), 1%nat, 2%nat, 9379881057437876992)];
[((BN ContractTypeArguments), 1%nat, 3%nat, 9478142514511749412)];
[((BN FullExpression), 0%nat, 3%nat, 9223688998126362660); ((BN FullExpression), 0%nat, 0%nat, 134217728); ((BN FullExpression), 1%nat, 0%nat, 134217728); ((BN FullExpression), 2%nat, 0%nat, 134217728); ((BN FullExpression), 3%nat, 0%nat, 134217728); ((BN FullExpression), 4%nat, 0%nat, 134217728); ((BN FullExpression), 5%nat, 0%nat, 134217728); ((BN FullExpression), 6%nat, 0%nat, 134217728); ((BN FullExpression), 7%nat, 0%nat, 134217728); ((BN FullExpression), 8%nat, 0%nat, 134217728); ((BN FullExpression), 9%nat, 0%nat, 134217728); ((BN FullExpression), 10%nat, 0%nat, 134217728); ((BN FullExpression), 11%nat, 0%nat, 134217728); ((BN FullExpression), 12%nat, 0%nat, 134217728); ((BN FullExpression), 13%nat, 0%nat, 134217728); ((BN FullExpression), 14%nat, 0%nat, 134217728); ((BN FullExpression), 15%nat, 0%nat, 134217728); ((BN VariableIdentifier), 0%nat, 0%nat, 254453516519604224); ((BN VariableIdentifier), 1%nat, 0%nat, 254453516519604224); ((BN VariableIdentifier), 2%nat, 0%nat, 254453516519604224); ((BN AtomicExpression), 0%nat, 0%nat, 134217728); ((BN AtomicExpression), 1%nat, 0%nat, 134217728); ((BN MetaIdentifier), 0%nat, 0%nat, 254453516519605248); ((BN MetaIdentifier), 1%nat, 0%nat, 254453516519605248); ((BN MetaIdentifier), 2%nat, 0%nat, 254453516519605248); ((BN MetaIdentifier), 3%nat, 0%nat, 254453516519605248); ((BN RegularId), 0%nat, 0%nat, 254453516519604224); ((BN SpecialId), 0%nat, 0%nat, 254453516519604224); ((BN TypeNameIdentifier), 0%nat, 0%nat, 258957116146975760); ((BN TypeNameIdentifier), 1%nat, 0%nat, 258957116146975760); ((BN TypeNameIdentifier), 2%nat, 0%nat, 258957116146975760); ((BN ValueLiteral), 0%nat, 0%nat, 134217728); ((BN ValueLiteral), 1%nat, 0%nat, 134217728); ((BN ValueLiteral), 2%nat, 0%nat, 134217728); ((BN ValueLiteral), 3%nat, 0%nat, 134217728); ((BN HexNumber), 0%nat, 0%nat, 134217744); ((BN ByteString), 0%nat, 0%nat, 258957116146975760); ((BN TypeOrEnumLikeIdentifierId), 0%nat, 0%nat, 258957116146975760); ((BN StringLiteral), 0%nat, 0%nat, 134217728)];
[((BN FullExpression), 1%nat, 3%nat, 9223688998126362660)];
[((BN FullExpression), 2%nat, 3%nat, 9223688998126362660); ((BN TypeAnnotation), 0%nat, 0%nat, 512)];
[((BP (Nt VariableIdentifier)), 1%nat, 2%nat, 9478142514511749668)];
[((BN BuiltinArguments), 0%nat, 1%nat, 9478142514511749156); ((BN FullExpression), 5%nat, 3%nat, 9223688998126362660); ((BN VariableIdentifier), 0%nat, 0%nat, 9478142514511749156); ((BN VariableIdentifier), 1%nat, 0%nat, 9478142514511749156); ((BN VariableIdentifier), 2%nat, 0%nat, 9478142514511749156); ((BN RegularId), 0%nat, 0%nat, 9478142514511749156); ((BN SpecialId), 0%nat, 0%nat, 9478142514511749156); ((BN TypeNameIdentifier), 0%nat, 0%nat, 16); ((BN TypeNameIdentifier), 1%nat, 0%nat, 16); ((BN TypeNameIdentifier), 2%nat, 0%nat, 16); ((BN ByteString), 0%nat, 0%nat, 16); ((BN TypeOrEnumLikeIdentifierId), 0%nat, 0%nat, 16)];
[((BN FullExpression), 6%nat, 3%nat, 9223688998126362660); ((BN BuiltinArguments), 0%nat, 0%nat, 9478142514511749156); ((BN BuiltinArguments), 1%nat, 0%nat, 9478142514511749156); ((BN BuiltinArguments), 2%nat, 0%nat, 9478142514511749156); ((BN VariableIdentifier), 0%nat, 0%nat, 9478142514511749156); ((BN VariableIdentifier), 1%nat, 0%nat, 9478142514511749156); ((BN VariableIdentifier), 2%nat, 0%nat, 9478142514511749156); ((BN RegularId), 0%nat, 0%nat, 9478142514511749156); ((BN SpecialId), 0%nat, 0%nat, 9478142514511749156); ((BN TypeNameIdentifier), 0%nat, 0%nat, 16); ((BN TypeNameIdentifier), 1%nat, 0%nat, 16); ((BN TypeNameIdentifier), 2%nat, 0%nat, 16); ((BN ByteString), 0%nat, 0%nat, 16); ((BN TypeOrEnumLikeIdentifierId), 0%nat, 0%nat, 16)];
[((BN FullExpression), 7%nat, 3%nat, 9223688998126362660)];
[((BN FullExpression), 8%nat, 3%nat, 9223688998126362660); ((BP (Nt NextMessageEntry)), 1%nat, 1%nat, 2052); ((BN NextMessageEntry), 0%nat, 0%nat, 2052)];
[((BP (Nt NextMessageEntry)), 0%nat, 1%nat, 2052)];
[((BN FullExpression), 9%nat, 3%nat, 9223688998126362660); ((BP (Nt PatternMatchExpressionClause)), 0%nat, 0%nat, 1073741856); ((BP (Nt PatternMatchExpressionClause)), 1%nat, 0%nat, 1073741856); ((BN PatternMatchExpressionClause), 0%nat, 0%nat, 1073741856)];
[((BN FullExpression), 13%nat, 3%nat, 9223688998126362660); ((BP (Nt VariableIdentifier)), 1%nat, 1%nat, 9478142514511749156); ((BN VariableIdentifier), 0%nat, 0%nat, 9478142514511749156); ((BN VariableIdentifier), 1%nat, 0%nat, 9478142514511749156); ((BN VariableIdentifier), 2%nat, 0%nat, 9478142514511749156); ((BN RegularId), 0%nat, 0%nat, 9478142514511749156); ((BN SpecialId), 0%nat, 0%nat, 9478142514511749156); ((BN TypeNameIdentifier), 0%nat, 0%nat, 16); ((BN TypeNameIdentifier), 1%nat, 0%nat, 16); ((BN TypeNameIdentifier), 2%nat, 0%nat, 16); ((BN ByteString), 0%nat, 0%nat, 16); ((BN TypeOrEnumLikeIdentifierId), 0%nat, 0%nat, 16)];
[((BN FullExpression), 14%nat, 3%nat, 9223688998126362660); ((BN FullExpression), 0%nat, 0%nat, 9223688998126362660); ((BN FullExpression), 1%nat, 0%nat, 9223688998126362660); ((BN FullExpression), 2%nat, 0%nat, 9223688998126362660); ((BN FullExpression), 3%nat, 0%nat, 9223688998126362660); ((BN FullExpression), 4%nat, 0%nat, 9223688998126362660); ((BN FullExpression), 5%nat, 0%nat, 9223688998126362660); ((BN FullExpression), 6%nat, 0%nat, 9223688998126362660); ((BN FullExpression), 7%nat, 0%nat, 9223688998126362660); ((BN FullExpression), 8%nat, 0%nat, 9223688998126362660); ((BN FullExpression), 9%nat, 0%nat, 9223688998126362660); ((BN FullExpression), 10%nat, 0%nat, 9223688998126362660); ((BN FullExpression), 11%nat, 0%nat, 9223688998126362660); ((BN FullExpression), 12%nat, 0%nat, 9223688998126362660); ((BN FullExpression), 13%nat, 0%nat, 9223688998126362660); ((BN FullExpression), 14%nat, 0%nat, 9223688998126362660); ((BN FullExpression), 15%nat, 0%nat, 9223688998126362660); ((BN VariableIdentifier), 0%nat, 0%nat, 9478142514511749156); ((BN VariableIdentifier), 1%nat, 0%nat, 9478142514511749156); ((BN VariableIdentifier), 2%nat, 0%nat, 9478142514511749156); ((BN AtomicExpression), 0%nat, 0%nat, 9223688998126362660); ((BN AtomicExpression), 1%nat, 0%nat, 9223688998126362660); ((BN MetaIdentifier), 0%nat, 0%nat, 9478142514511750180); ((BN MetaIdentifier), 1%nat, 0%nat, 9478142514511750180); ((BN MetaIdentifier), 2%nat, 0%nat, 9478142514511750180); ((BN MetaIdentifier), 3%nat, 0%nat, 9478142514511750180); ((BN RegularId), 0%nat, 0%nat, 9478142514511749156); ((BN SpecialId), 0%nat, 0%nat, 9478142514511749156); ((BN TypeNameIdentifier), 0%nat, 0%nat, 9482646114139120692); ((BN TypeNameIdentifier), 1%nat, 0%nat, 9482646114139120692); ((BN TypeNameIdentifier), 2%nat, 0%nat, 9482646114139120692); ((BN ValueLiteral), 0%nat, 0%nat, 9223688998126362660); ((BN ValueLiteral), 1%nat, 0%nat, 9223688998126362660); ((BN ValueLiteral), 2%nat, 0%nat, 9223688998126362660); ((BN ValueLiteral), 3%nat, 0%nat, 9223688998126362660); ((BN HexNumber), 0%nat, 0%nat, 9223688998126362676); ((BN ByteString), 0%nat, 0%nat, 9482646114139120692); ((BN TypeOrEnumLikeIdentifierId), 0%nat, 0%nat, 9482646114139120692); ((BN StringLiteral), 0%nat, 0%nat, 9223688998126362660)];
[((BN FullExpression), 15%nat, 3%nat, 9223688998126362660); ((BP (Nt TypeArgument)), 1%nat, 1%nat, 9668428394861175076); ((BN TypeArgument), 0%nat, 0%nat, 9668428394861175076); ((BN TypeArgument), 1%nat, 0%nat, 9668428394861175076); ((BN TypeArgument), 2%nat, 0%nat, 9668428394861175076); ((BN TypeArgument), 3%nat, 0%nat, 9668428394861175076); ((BN TypeArgument), 4%nat, 0%nat, 9668428394861175076); ((BN MetaIdentifier), 0%nat, 0%nat, 9668428394861175076); ((BN MetaIdentifier), 1%nat, 0%nat, 9668428394861175076); ((BN MetaIdentifier), 2%nat, 0%nat, 9668428394861175076); ((BN MetaIdentifier), 3%nat, 0%nat, 9668428394861175076); ((BN TemplateTypeId), 0%nat, 0%nat, 9668428394861175076); ((BN AddressType), 0%nat, 0%nat, 9668428394861175076); ((BN AddressType), 1%nat, 0%nat, 9668428394861175076); ((BN AddressType), 2%nat, 0%nat, 9668428394861175076); ((BN AddressType), 3%nat, 0%nat, 9668428394861175076); ((BN AddressType), 4%nat, 0%nat, 9668428394861175076); ((BN TypeNameIdentifier), 0%nat, 0%nat, 9668428395398046004); ((BN TypeNameIdentifier), 1%nat, 0%nat, 9668428395398046004); ((BN TypeNameIdentifier), 2%nat, 0%nat, 9668428395398046004); ((BN HexNumber), 0%nat, 0%nat, 16); ((BN ByteString), 0%nat, 0%nat, 9668428395398046004); ((BN TypeOrEnumLikeIdentifierId), 0%nat, 0%nat, 9668428395398046004)];
[((BN ValueLiteral), 3%nat, 3%nat, 9223688998126364708)];
[((BN PatternMatchExpressionClause), 0%nat, 3%nat, 9223372037928517664); ((BN FullExpression), 0%nat, 0%nat, 9223372037928517664); ((BN FullExpression), 1%nat, 0%nat, 9223372037928517664); ((BN FullExpression), 2%nat, 0%nat, 9223372037928517664); ((BN FullExpression), 3%nat, 0%nat, 9223372037928517664); ((BN FullExpression), 4%nat, 0%nat, 9223372037928517664); ((BN FullExpression), 5%nat, 0%nat, 9223372037928517664); ((BN FullExpression), 6%nat, 0%nat, 9223372037928517664); ((BN FullExpression), 7%nat, 0%nat, 9223372037928517664); ((BN FullExpression), 8%nat, 0%nat, 9223372037928517664); ((BN FullExpression), 9%nat, 0%nat, 9223372037928517664); ((BN FullExpression), 10%nat, 0%nat, 9223372037928517664); ((BN FullExpression), 11%nat, 0%nat, 9223372037928517664); ((BN FullExpression), 12%nat, 0%nat, 9223372037928517664); ((BN FullExpression), 13%nat, 0%nat, 9223372037928517664); ((BN FullExpression), 14%nat, 0%nat, 9223372037928517664); ((BN FullExpression), 15%nat, 0%nat, 9223372037928517664); ((BN VariableIdentifier), 0%nat, 0%nat, 9477825554313904160); ((BN VariableIdentifier), 1%nat, 0%nat, 9477825554313904160); ((BN VariableIdentifier), 2%nat, 0%nat, 9477825554313904160); ((BN AtomicExpression), 0%nat, 0%nat, 9223372037928517664); ((BN AtomicExpression), 1%nat, 0%nat, 9223372037928517664); ((BN MetaIdentifier), 0%nat, 0%nat, 9477825554313905184); ((BN MetaIdentifier), 1%nat, 0%nat, 9477825554313905184); ((BN MetaIdentifier), 2%nat, 0%nat, 9477825554313905184); ((BN MetaIdentifier), 3%nat, 0%nat, 9477825554313905184); ((BN RegularId), 0%nat, 0%nat, 9477825554313904160); ((BN SpecialId), 0%nat, 0%nat, 9477825554313904160); ((BN TypeNameIdentifier), 0%nat, 0%nat, 9482329153941275696); ((BN TypeNameIdentifier), 1%nat, 0%nat, 9482329153941275696); ((BN TypeNameIdentifier), 2%nat, 0%nat, 9482329153941275696); ((BN ValueLiteral), 0%nat, 0%nat, 9223372037928517664); ((BN ValueLiteral), 1%nat, 0%nat, 9223372037928517664); ((BN ValueLiteral), 2%nat, 0%nat, 9223372037928517664); ((BN ValueLiteral), 3%nat, 0%nat, 9223372037928517664); ((BN HexNumber), 0%nat, 0%nat, 9223372037928517680); ((BN ByteString), 0%nat, 0%nat, 9482329153941275696); ((BN TypeOrEnumLikeIdentifierId), 0%nat, 0%nat, 9482329153941275696); ((BN StringLiteral), 0%nat, 0%nat, 9223372037928517664)];
[((BP (Nt ArgumentPattern)), 1%nat, 2%nat, 9415901058365924096)];
[((BN ArgumentPattern), 3%nat, 3%nat, 9415901058365924096)];
[((BN MessageEntry), 0%nat, 3%nat, 9223372036854777860)];
[((BN MessageEntry), 1%nat, 3%nat, 9223372036854777860)];
[((BN Statement), 0%nat, 3%nat, 9223372037928517668)];
[((BN Statement), 4%nat, 3%nat, 9223372037928517668); ((BN Statement), 5%nat, 3%nat, 9223372037928517668); ((BN RemoteFetchStatement), 0%nat, 3%nat, 9223372037928517668); ((BN RemoteFetchStatement), 1%nat, 3%nat, 9223372037928517668); ((BN RemoteFetchStatement), 2%nat, 3%nat, 9223372037928517668); ((BN RemoteFetchStatement), 3%nat, 3%nat, 9223372037928517668); ((BN RemoteFetchStatement), 4%nat, 3%nat, 9223372037928517668); ((BN TypeNameIdentifier), 0%nat, 0%nat, 9223372037928517940); ((BN TypeNameIdentifier), 1%nat, 0%nat, 9223372037928517940); ((BN TypeNameIdentifier), 2%nat, 0%nat, 9223372037928517940); ((BN RegularId), 0%nat, 0%nat, 140737488355344); ((BN SpecialId), 0%nat, 0%nat, 140737488355344); ((BN VariableIdentifier), 0%nat, 0%nat, 140737488355328); ((BN VariableIdentifier), 1%nat, 0%nat, 140737488355328); ((BN VariableIdentifier), 2%nat, 0%nat, 140737488355328); ((BN ByteString), 0%nat, 0%nat, 9223372037928517940); ((BN TypeOrEnumLikeIdentifierId), 0%nat, 0%nat, 9223372037928517940)];
[((BN VariableIdentifier), 0%nat, 1%nat, 9223372037928517668); ((BN Statement), 6%nat, 3%nat, 9223372037928517668); ((BP (Nt MapAccess)), 0%nat, 0%nat, 9223372037928517732); ((BP (Nt MapAccess)), 1%nat, 0%nat, 9223372037928517732); ((BN MapAccess), 0%nat, 0%nat, 9223372037928517732)];
[((BN Statement), 7%nat, 3%nat, 9223372037928517668); ((BN RegularId), 0%nat, 0%nat, 64)];
[((BN Statement), 2%nat, 3%nat, 9223372037928517668)];
[((BN Statement), 3%nat, 3%nat, 9223372037928517668)];
[((BN Statement), 8%nat, 3%nat, 9223372037928517668); ((BN VariableIdentifier), 0%nat, 0%nat, 9223372037928517668); ((BN VariableIdentifier), 1%nat, 0%nat, 9223372037928517668); ((BN VariableIdentifier), 2%nat, 0%nat, 9223372037928517668); ((BN RegularId), 0%nat, 0%nat, 9223372037928517668); ((BN SpecialId), 0%nat, 0%nat, 9223372037928517668); ((BN TypeNameIdentifier), 0%nat, 0%nat, 16); ((BN TypeNameIdentifier), 1%nat, 0%nat, 16); ((BN TypeNameIdentifier), 2%nat, 0%nat, 16); ((BN ByteString), 0%nat, 0%nat, 16); ((BN TypeOrEnumLikeIdentifierId), 0%nat, 0%nat, 16)];
[((BP (Nt MapAccess)), 1%nat, 2%nat, 9223372037928779876)];
[((BN Statement), 9%nat, 3%nat, 9223372037928517668); ((BP (Nt MapAccess)), 1%nat, 1%nat, 9223372037928517732); ((BN MapAccess), 0%nat, 0%nat, 9223372037928517732)];
[((BN Statement), 15%nat, 3%nat, 9223372037928517668); ((BP (Nt PatternMatchClause)), 0%nat, 0%nat, 1073741856); ((BP (Nt PatternMatchClause)), 1%nat, 0%nat, 1073741856); ((BN PatternMatchClause), 0%nat, 0%nat, 1073741856); ((BN PatternMatchClause), 1%nat, 0%nat, 1073741856)];
[((BN Statement), 18%nat, 3%nat, 9223372037928517668)];
[((BP (Nt NextStatement)), 1%nat, 2%nat, 9223372037928517668)];
[((BN BlockchainFetchArguments), 0%nat, 3%nat, 9223372037928517668)];
[((BN PatternMatchClause), 0%nat, 3%nat, 9223372037928517664); ((BN PatternMatchClause), 1%nat, 3%nat, 9223372037928517664); ((BN StatementBlock), 0%nat, 0%nat, 9223372037928517664); ((BN StatementBlock), 1%nat, 0%nat, 9223372037928517664); ((BN Statement), 0%nat, 0%nat, 9223372037928517668); ((BN Statement), 1%nat, 0%nat, 9223372037928517668); ((BN Statement), 2%nat, 0%nat, 9223372037928517668); ((BN Statement), 3%nat, 0%nat, 9223372037928517668); ((BN Statement), 4%nat, 0%nat, 9223372037928517668); ((BN Statement), 5%nat, 0%nat, 9223372037928517668); ((BN Statement), 6%nat, 0%nat, 9223372037928517668); ((BN Statement), 7%nat, 0%nat, 9223372037928517668); ((BN Statement), 8%nat, 0%nat, 9223372037928517668); ((BN Statement), 9%nat, 0%nat, 9223372037928517668); ((BN Statement), 10%nat, 0%nat, 9223372037928517668); ((BN Statement), 11%nat, 0%nat, 9223372037928517668); ((BN Statement), 12%nat, 0%nat, 9223372037928517668); ((BN Statement), 13%nat, 0%nat, 9223372037928517668); ((BN Statement), 14%nat, 0%nat, 9223372037928517668); ((BN Statement), 15%nat, 0%nat, 9223372037928517668); ((BN Statement), 16%nat, 0%nat, 9223372037928517668); ((BN Statement), 17%nat, 0%nat, 9223372037928517668); ((BN Statement), 18%nat, 0%nat, 9223372037928517668); ((BN RegularId), 0%nat, 0%nat, 9477825554314330212); ((BN RemoteFetchStatement), 0%nat, 0%nat, 9223372037928517668); ((BN RemoteFetchStatement), 1%nat, 0%nat, 9223372037928517668); ((BN RemoteFetchStatement), 2%nat, 0%nat, 9223372037928517668); ((BN RemoteFetchStatement), 3%nat, 0%nat, 9223372037928517668); ((BN RemoteFetchStatement), 4%nat, 0%nat, 9223372037928517668); ((BN ComponentId), 0%nat, 0%nat, 9477825554313904164); ((BN ComponentId), 1%nat, 0%nat, 9477825554313904164); ((BN TypeNameIdentifier), 0%nat, 0%nat, 9477825554313904164); ((BN TypeNameIdentifier), 1%nat, 0%nat, 9477825554313904164); ((BN TypeNameIdentifier), 2%nat, 0%nat, 9477825554313904164); ((BN ByteString), 0%nat, 0%nat, 9477825554313904164); ((BN TypeOrEnumLikeIdentifierId), 0%nat, 0%nat, 9477825554313904164)];
[((BN RemoteFetchStatement), 0%nat, 3%nat, 9223372036854775808); ((BN RemoteFetchStatement), 1%nat, 3%nat, 9223372036854775808); ((BN RemoteFetchStatement), 2%nat, 3%nat, 9223372036854775808); ((BN RemoteFetchStatement), 3%nat, 3%nat, 9223372036854775808); ((BN RemoteFetchStatement), 4%nat, 3%nat, 9223372036854775808); ((BN RegularId), 0%nat, 0%nat, 140737488355344); ((BN SpecialId), 0%nat, 0%nat, 140737488355344); ((BN VariableIdentifier), 0%nat, 0%nat, 140737488355328); ((BN VariableIdentifier), 1%nat, 0%nat, 140737488355328); ((BN VariableIdentifier), 2%nat, 0%nat, 140737488355328); ((BN TypeNameIdentifier), 0%nat, 0%nat, 16); ((BN TypeNameIdentifier), 1%nat, 0%nat, 16); ((BN TypeNameIdentifier), 2%nat, 0%nat, 16); ((BN ByteString), 0%nat, 0%nat, 16); ((BN TypeOrEnumLikeIdentifierId), 0%nat, 0%nat, 16)];
[((BN MapAccess), 0%nat, 3%nat, 9223372037928779876)];
[((BN ComponentParameters), 1%nat, 3%nat, 9406056978024759296)];
[((BP (Nt NextParameterPair)), 1%nat, 2%nat, 4608)];
[((BN ComponentParameters), 2%nat, 3%nat, 9406056978024759296)];
[((BN ComponentParameters), 3%nat, 3%nat, 9406056978024759296); ((BP (Nt NextParameterPair)), 1%nat, 1%nat, 4608); ((BN NextParameterPair), 0%nat, 0%nat, 4608)];
[((BN TransitionDefinition), 0%nat, 3%nat, 9223653529011355648); ((BN ComponentBody), 0%nat, 0%nat, 9223653529011355648); ((BN ComponentBody), 1%nat, 0%nat, 9223653529011355648); ((BN StatementBlock), 0%nat, 0%nat, 1073741824); ((BN StatementBlock), 1%nat, 0%nat, 1073741824); ((BN Statement), 0%nat, 0%nat, 1073741828); ((BN Statement), 1%nat, 0%nat, 1073741828); ((BN Statement), 2%nat, 0%nat, 1073741828); ((BN Statement), 3%nat, 0%nat, 1073741828); ((BN Statement), 4%nat, 0%nat, 1073741828); ((BN Statement), 5%nat, 0%nat, 1073741828); ((BN Statement), 6%nat, 0%nat, 1073741828); ((BN Statement), 7%nat, 0%nat, 1073741828); ((BN Statement), 8%nat, 0%nat, 1073741828); ((BN Statement), 9%nat, 0%nat, 1073741828); ((BN Statement), 10%nat, 0%nat, 1073741828); ((BN Statement), 11%nat, 0%nat, 1073741828); ((BN Statement), 12%nat, 0%nat, 1073741828); ((BN Statement), 13%nat, 0%nat, 1073741828); ((BN Statement), 14%nat, 0%nat, 1073741828); ((BN Statement), 15%nat, 0%nat, 1073741828); ((BN Statement), 16%nat, 0%nat, 1073741828); ((BN Statement), 17%nat, 0%nat, 1073741828); ((BN Statement), 18%nat, 0%nat, 1073741828); ((BN RegularId), 0%nat, 0%nat, 254453517459554372); ((BN RemoteFetchStatement), 0%nat, 0%nat, 1073741828); ((BN RemoteFetchStatement), 1%nat, 0%nat, 1073741828); ((BN RemoteFetchStatement), 2%nat, 0%nat, 1073741828); ((BN RemoteFetchStatement), 3%nat, 0%nat, 1073741828); ((BN RemoteFetchStatement), 4%nat, 0%nat, 1073741828); ((BN ComponentId), 0%nat, 0%nat, 254453517459128324); ((BN ComponentId), 1%nat, 0%nat, 254453517459128324); ((BN TypeNameIdentifier), 0%nat, 0%nat, 254453517459128324); ((BN TypeNameIdentifier), 1%nat, 0%nat, 254453517459128324); ((BN TypeNameIdentifier), 2%nat, 0%nat, 254453517459128324); ((BN ByteString), 0%nat, 0%nat, 254453517459128324); ((BN TypeOrEnumLikeIdentifierId), 0%nat, 0%nat, 254453517459128324)];
[((BN ProcedureDefinition), 0%nat, 3%nat, 9223653529011355648); ((BN ComponentBody), 0%nat, 0%nat, 9223653529011355648); ((BN ComponentBody), 1%nat, 0%nat, 9223653529011355648); ((BN StatementBlock), 0%nat, 0%nat, 1073741824); ((BN StatementBlock), 1%nat, 0%nat, 1073741824); ((BN Statement), 0%nat, 0%nat, 1073741828); ((BN Statement), 1%nat, 0%nat, 1073741828); ((BN Statement), 2%nat, 0%nat, 1073741828); ((BN Statement), 3%nat, 0%nat, 1073741828); ((BN Statement), 4%nat, 0%nat, 1073741828); ((BN Statement), 5%nat, 0%nat, 1073741828); ((BN Statement), 6%nat, 0%nat, 1073741828); ((BN Statement), 7%nat, 0%nat, 1073741828); ((BN Statement), 8%nat, 0%nat, 1073741828); ((BN Statement), 9%nat, 0%nat, 1073741828); ((BN Statement), 10%nat, 0%nat, 1073741828); ((BN Statement), 11%nat, 0%nat, 1073741828); ((BN Statement), 12%nat, 0%nat, 1073741828); ((BN Statement), 13%nat, 0%nat, 1073741828); ((BN Statement), 14%nat, 0%nat, 1073741828); ((BN Statement), 15%nat, 0%nat, 1073741828); ((BN Statement), 16%nat, 0%nat, 1073741828); ((BN Statement), 17%nat, 0%nat, 1073741828); ((BN Statement), 18%nat, 0%nat, 1073741828); ((BN RegularId), 0%nat, 0%nat, 254453517459554372); ((BN RemoteFetchStatement), 0%nat, 0%nat, 1073741828); ((BN RemoteFetchStatement), 1%nat, 0%nat, 1073741828); ((BN RemoteFetchStatement), 2%nat, 0%nat, 1073741828); ((BN RemoteFetchStatement), 3%nat, 0%nat, 1073741828); ((BN RemoteFetchStatement), 4%nat, 0%nat, 1073741828); ((BN ComponentId), 0%nat, 0%nat, 254453517459128324); ((BN ComponentId), 1%nat, 0%nat, 254453517459128324); ((BN TypeNameIdentifier), 0%nat, 0%nat, 254453517459128324); ((BN TypeNameIdentifier), 1%nat, 0%nat, 254453517459128324); ((BN TypeNameIdentifier), 2%nat, 0%nat, 254453517459128324); ((BN ByteString), 0%nat, 0%nat, 254453517459128324); ((BN TypeOrEnumLikeIdentifierId), 0%nat, 0%nat, 254453517459128324)];
[((BN ContractDefinition), 0%nat, 3%nat, 9223372036854775808); ((BN ContractDefinition), 1%nat, 3%nat, 9223372036854775808); ((BN ContractDefinition), 2%nat, 3%nat, 9223372036854775808); ((BN ContractDefinition), 3%nat, 3%nat, 9223372036854775808); ((BN ContractDefinition), 4%nat, 3%nat, 9223372036854775808); ((BN ContractDefinition), 5%nat, 3%nat, 9223372036854775808); ((BN ContractDefinition), 6%nat, 3%nat, 9223372036854775808); ((BN ContractDefinition), 7%nat, 3%nat, 9223372036854775808); ((BP (Nt ComponentDefinition)), 0%nat, 0%nat, 9223653529011355648); ((BP (Nt ComponentDefinition)), 1%nat, 0%nat, 9223653529011355648); ((BP (Nt ContractField)), 0%nat, 0%nat, 9223653803889262592); ((BP (Nt ContractField)), 1%nat, 0%nat, 9223653803889262592); ((BN WithConstraint), 0%nat, 0%nat, 9223653803889262592); ((BN ComponentDefinition), 0%nat, 0%nat, 9223653529011355648); ((BN ComponentDefinition), 1%nat, 0%nat, 9223653529011355648); ((BN ContractField), 0%nat, 0%nat, 9223653803889262592); ((BN TransitionDefinition), 0%nat, 0%nat, 9223653529011355648); ((BN ProcedureDefinition), 0%nat, 0%nat, 9223653529011355648)];
[((BN ContractField), 0%nat, 3%nat, 9223653803889262592); ((BN FullExpression), 0%nat, 0%nat, 9223653803889262592); ((BN FullExpression), 1%nat, 0%nat, 9223653803889262592); ((BN FullExpression), 2%nat, 0%nat, 9223653803889262592); ((BN FullExpression), 3%nat, 0%nat, 9223653803889262592); ((BN FullExpression), 4%nat, 0%nat, 9223653803889262592); ((BN FullExpression), 5%nat, 0%nat, 9223653803889262592); ((BN FullExpression), 6%nat, 0%nat, 9223653803889262592); ((BN FullExpression), 7%nat, 0%nat, 9223653803889262592); ((BN FullExpression), 8%nat, 0%nat, 9223653803889262592); ((BN FullExpression), 9%nat, 0%nat, 9223653803889262592); ((BN FullExpression), 10%nat, 0%nat, 9223653803889262592); ((BN FullExpression), 11%nat, 0%nat, 9223653803889262592); ((BN FullExpression), 12%nat, 0%nat, 9223653803889262592); ((BN FullExpression), 13%nat, 0%nat, 9223653803889262592); ((BN FullExpression), 14%nat, 0%nat, 9223653803889262592); ((BN FullExpression), 15%nat, 0%nat, 9223653803889262592); ((BN VariableIdentifier), 0%nat, 0%nat, 9478107320274649088); ((BN VariableIdentifier), 1%nat, 0%nat, 9478107320274649088); ((BN VariableIdentifier), 2%nat, 0%nat, 9478107320274649088); ((BN AtomicExpression), 0%nat, 0%nat, 9223653803889262592); ((BN AtomicExpression), 1%nat, 0%nat, 9223653803889262592); ((BN MetaIdentifier), 0%nat, 0%nat, 9478107320274650112); ((BN MetaIdentifier), 1%nat, 0%nat, 9478107320274650112); ((BN MetaIdentifier), 2%nat, 0%nat, 9478107320274650112); ((BN MetaIdentifier), 3%nat, 0%nat, 9478107320274650112); ((BN RegularId), 0%nat, 0%nat, 9478107320274649088); ((BN SpecialId), 0%nat, 0%nat, 9478107320274649088); ((BN TypeNameIdentifier), 0%nat, 0%nat, 9482610919902020624); ((BN TypeNameIdentifier), 1%nat, 0%nat, 9482610919902020624); ((BN TypeNameIdentifier), 2%nat, 0%nat, 9482610919902020624); ((BN ValueLiteral), 0%nat, 0%nat, 9223653803889262592); ((BN ValueLiteral), 1%nat, 0%nat, 9223653803889262592); ((BN ValueLiteral), 2%nat, 0%nat, 9223653803889262592); ((BN ValueLiteral), 3%nat, 0%nat, 9223653803889262592); ((BN HexNumber), 0%nat, 0%nat, 9223653803889262608); ((BN ByteString), 0%nat, 0%nat, 9482610919902020624); ((BN TypeOrEnumLikeIdentifierId), 0%nat, 0%nat, 9482610919902020624); ((BN StringLiteral), 0%nat, 0%nat, 9223653803889262592)];
[((BN WithConstraint), 0%nat, 3%nat, 9223653803889262592)];
[((BN RemainingTypes), 5%nat, 4%nat, 9223372037928571392)];
[((BN AddressType), 1%nat, 4%nat, 9668428394861230884)];
[((BN AddressType), 2%nat, 4%nat, 9668428394861230884)];
[((BN AddressType), 3%nat, 4%nat, 9668428394861230884)];
[((BN AddressType), 4%nat, 4%nat, 9668428394861230884)];
[((BN AddressTypeField), 0%nat, 4%nat, 9223372037928521728)];
[((BN Program), 1%nat, 4%nat, 9223372036854775808)];
[((BN Program), 2%nat, 4%nat, 9223372036854775808)];
[((BN Program), 3%nat, 4%nat, 9223372036854775808); ((BN ContractDefinition), 0%nat, 0%nat, 9223372036854775808); ((BN ContractDefinition), 1%nat, 0%nat, 9223372036854775808); ((BN ContractDefinition), 2%nat, 0%nat, 9223372036854775808); ((BN ContractDefinition), 3%nat, 0%nat, 9223372036854775808); ((BN ContractDefinition), 4%nat, 0%nat, 9223372036854775808); ((BN ContractDefinition), 5%nat, 0%nat, 9223372036854775808); ((BN ContractDefinition), 6%nat, 0%nat, 9223372036854775808); ((BN ContractDefinition), 7%nat, 0%nat, 9223372036854775808)];
[((BP (Nt LibrarySingleDefinition)), 1%nat, 2%nat, 9223407229883908096)];
[((BN LibrarySingleDefinition), 0%nat, 4%nat, 9223407229883908096)];
[((BN LibrarySingleDefinition), 1%nat, 4%nat, 9223407229883908096); ((BN FullExpression), 0%nat, 0%nat, 9223407229883908096); ((BN FullExpression), 1%nat, 0%nat, 9223407229883908096); ((BN FullExpression), 2%nat, 0%nat, 9223407229883908096); ((BN FullExpression), 3%nat, 0%nat, 9223407229883908096); ((BN FullExpression), 4%nat, 0%nat, 9223407229883908096); ((BN FullExpression), 5%nat, 0%nat, 9223407229883908096); ((BN FullExpression), 6%nat, 0%nat, 9223407229883908096); ((BN FullExpression), 7%nat, 0%nat, 9223407229883908096); ((BN FullExpression), 8%nat, 0%nat, 9223407229883908096); ((BN FullExpression), 9%nat, 0%nat, 9223407229883908096); ((BN FullExpression), 10%nat, 0%nat, 9223407229883908096); ((BN FullExpression), 11%nat, 0%nat, 9223407229883908096); ((BN FullExpression), 12%nat, 0%nat, 9223407229883908096); ((BN FullExpression), 13%nat, 0%nat, 9223407229883908096); ((BN FullExpression), 14%nat, 0%nat, 9223407229883908096); ((BN FullExpression), 15%nat, 0%nat, 9223407229883908096); ((BN VariableIdentifier), 0%nat, 0%nat, 9477860746269294592); ((BN VariableIdentifier), 1%nat, 0%nat, 9477860746269294592); ((BN VariableIdentifier), 2%nat, 0%nat, 9477860746269294592); ((BN AtomicExpression), 0%nat, 0%nat, 9223407229883908096); ((BN AtomicExpression), 1%nat, 0%nat, 9223407229883908096); ((BN MetaIdentifier), 0%nat, 0%nat, 9477860746269295616); ((BN MetaIdentifier), 1%nat, 0%nat, 9477860746269295616); ((BN MetaIdentifier), 2%nat, 0%nat, 9477860746269295616); ((BN MetaIdentifier), 3%nat, 0%nat, 9477860746269295616); ((BN RegularId), 0%nat, 0%nat, 9477860746269294592); ((BN SpecialId), 0%nat, 0%nat, 9477860746269294592); ((BN TypeNameIdentifier), 0%nat, 0%nat, 9482364345896666128); ((BN TypeNameIdentifier), 1%nat, 0%nat, 9482364345896666128); ((BN TypeNameIdentifier), 2%nat, 0%nat, 9482364345896666128); ((BN ValueLiteral), 0%nat, 0%nat, 9223407229883908096); ((BN ValueLiteral), 1%nat, 0%nat, 9223407229883908096); ((BN ValueLiteral), 2%nat, 0%nat, 9223407229883908096); ((BN ValueLiteral), 3%nat, 0%nat, 9223407229883908096); ((BN HexNumber), 0%nat, 0%nat, 9223407229883908112); ((BN ByteString), 0%nat, 0%nat, 9482364345896666128); ((BN TypeOrEnumLikeIdentifierId), 0%nat, 0%nat, 9482364345896666128); ((BN StringLiteral), 0%nat, 0%nat, 9223407229883908096)];
[((BN LibrarySingleDefinition), 3%nat, 4%nat, 9223407229883908096); ((BP (Nt TypeAlternativeClause)), 1%nat, 1%nat, 9223407229883908128); ((BN TypeAlternativeClause), 0%nat, 0%nat, 9223407229883908128); ((BN TypeAlternativeClause), 1%nat, 0%nat, 9223407229883908128)];
[((BP (Nt TypeAlternativeClause)), 0%nat, 1%nat, 9223407229883908128)];
[((BN TypeAlternativeClause), 1%nat, 4%nat, 9223407229883908128); ((BP (Nt TypeArgument)), 1%nat, 1%nat, 9668146626618720544); ((BN TypeArgument), 0%nat, 0%nat, 9668146626618720544); ((BN TypeArgument), 1%nat, 0%nat, 9668146626618720544); ((BN TypeArgument), 2%nat, 0%nat, 9668146626618720544); ((BN TypeArgument), 3%nat, 0%nat, 9668146626618720544); ((BN TypeArgument), 4%nat, 0%nat, 9668146626618720544); ((BN MetaIdentifier), 0%nat, 0%nat, 9668146626618720544); ((BN MetaIdentifier), 1%nat, 0%nat, 9668146626618720544); ((BN MetaIdentifier), 2%nat, 0%nat, 9668146626618720544); ((BN MetaIdentifier), 3%nat, 0%nat, 9668146626618720544); ((BN TemplateTypeId), 0%nat, 0%nat, 9668146626618720544); ((BN AddressType), 0%nat, 0%nat, 9668146626618720544); ((BN AddressType), 1%nat, 0%nat, 9668146626618720544); ((BN AddressType), 2%nat, 0%nat, 9668146626618720544); ((BN AddressType), 3%nat, 0%nat, 9668146626618720544); ((BN AddressType), 4%nat, 0%nat, 9668146626618720544); ((BN TypeNameIdentifier), 0%nat, 0%nat, 9668146627155591472); ((BN TypeNameIdentifier), 1%nat, 0%nat, 9668146627155591472); ((BN TypeNameIdentifier), 2%nat, 0%nat, 9668146627155591472); ((BN HexNumber), 0%nat, 0%nat, 16); ((BN ByteString), 0%nat, 0%nat, 9668146627155591472); ((BN TypeOrEnumLikeIdentifierId), 0%nat, 0%nat, 9668146627155591472)];
[((BN FullExpression), 0%nat, 4%nat, 9223688998126362660)];
[((BN FullExpression), 1%nat, 4%nat, 9223688998126362660); ((BN FullExpression), 0%nat, 0%nat, 134217728); ((BN FullExpression), 1%nat, 0%nat, 134217728); ((BN FullExpression), 2%nat, 0%nat, 134217728); ((BN FullExpression), 3%nat, 0%nat, 134217728); ((BN FullExpression), 4%nat, 0%nat, 134217728); ((BN FullExpression), 5%nat, 0%nat, 134217728); ((BN FullExpression), 6%nat, 0%nat, 134217728); ((BN FullExpression), 7%nat, 0%nat, 134217728); ((BN FullExpression), 8%nat, 0%nat, 134217728); ((BN FullExpression), 9%nat, 0%nat, 134217728); ((BN FullExpression), 10%nat, 0%nat, 134217728); ((BN FullExpression), 11%nat, 0%nat, 134217728); ((BN FullExpression), 12%nat, 0%nat, 134217728); ((BN FullExpression), 13%nat, 0%nat, 134217728); ((BN FullExpression), 14%nat, 0%nat, 134217728); ((BN FullExpression), 15%nat, 0%nat, 134217728); ((BN VariableIdentifier), 0%nat, 0%nat, 254453516519604224); ((BN VariableIdentifier), 1%nat, 0%nat, 254453516519604224); ((BN VariableIdentifier), 2%nat, 0%nat, 254453516519604224); ((BN AtomicExpression), 0%nat, 0%nat, 134217728); ((BN AtomicExpression), 1%nat, 0%nat, 134217728); ((BN MetaIdentifier), 0%nat, 0%nat, 254453516519605248); ((BN MetaIdentifier), 1%nat, 0%nat, 254453516519605248); ((BN MetaIdentifier), 2%nat, 0%nat, 254453516519605248); ((BN MetaIdentifier), 3%nat, 0%nat, 254453516519605248); ((BN RegularId), 0%nat, 0%nat, 254453516519604224); ((BN SpecialId), 0%nat, 0%nat, 254453516519604224); ((BN TypeNameIdentifier), 0%nat, 0%nat, 258957116146975760); ((BN TypeNameIdentifier), 1%nat, 0%nat, 258957116146975760); ((BN TypeNameIdentifier), 2%nat, 0%nat, 258957116146975760); ((BN ValueLiteral), 0%nat, 0%nat, 134217728); ((BN ValueLiteral), 1%nat, 0%nat, 134217728); ((BN ValueLiteral), 2%nat, 0%nat, 134217728); ((BN ValueLiteral), 3%nat, 0%nat, 134217728); ((BN HexNumber), 0%nat, 0%nat, 134217744); ((BN ByteString), 0%nat, 0%nat, 258957116146975760); ((BN TypeOrEnumLikeIdentifierId), 0%nat, 0%nat, 258957116146975760); ((BN StringLiteral), 0%nat, 0%nat, 134217728)];
[((BN FullExpression), 2%nat, 4%nat, 9223688998126362660)];
[((BN BuiltinArguments), 0%nat, 1%nat, 9478142514511749156); ((BN FullExpression), 6%nat, 4%nat, 9223688998126362660); ((BN VariableIdentifier), 0%nat, 0%nat, 9478142514511749156); ((BN VariableIdentifier), 1%nat, 0%nat, 9478142514511749156); ((BN VariableIdentifier), 2%nat, 0%nat, 9478142514511749156); ((BN RegularId), 0%nat, 0%nat, 9478142514511749156); ((BN SpecialId), 0%nat, 0%nat, 9478142514511749156); ((BN TypeNameIdentifier), 0%nat, 0%nat, 16); ((BN TypeNameIdentifier), 1%nat, 0%nat, 16); ((BN TypeNameIdentifier), 2%nat, 0%nat, 16); ((BN ByteString), 0%nat, 0%nat, 16); ((BN TypeOrEnumLikeIdentifierId), 0%nat, 0%nat, 16)];
[((BN FullExpression), 8%nat, 4%nat, 9223688998126362660)];
[((BP (Nt NextMessageEntry)), 1%nat, 2%nat, 2052)];
[((BN FullExpression), 9%nat, 4%nat, 9223688998126362660); ((BP (Nt PatternMatchExpressionClause)), 1%nat, 1%nat, 1073741856); ((BN PatternMatchExpressionClause), 0%nat, 0%nat, 1073741856)];
[((BP (Nt PatternMatchExpressionClause)), 0%nat, 1%nat, 1073741856)];
[((BN FullExpression), 14%nat, 4%nat, 9223688998126362660)];
[((BN PatternMatchExpressionClause), 0%nat, 4%nat, 9223372037928517664)];
[((BN VariableIdentifier), 2%nat, 1%nat, 140737488355328); ((BN Statement), 4%nat, 4%nat, 9223372037928517668); ((BN Statement), 5%nat, 4%nat, 9223372037928517668); ((BN BlockchainFetchArguments), 0%nat, 0%nat, 9223372037928517668)];
[((BN VariableIdentifier), 0%nat, 1%nat, 140737488355328); ((BN RemoteFetchStatement), 0%nat, 4%nat, 9223372037928517668); ((BN RemoteFetchStatement), 2%nat, 4%nat, 9223372037928517668)];
[((BN VariableIdentifier), 1%nat, 1%nat, 140737488355328); ((BN RemoteFetchStatement), 1%nat, 4%nat, 9223372037928517668)];
[((BN RemoteFetchStatement), 3%nat, 4%nat, 9223372037928517668); ((BN RegularId), 0%nat, 0%nat, 16)];
[((BN RemoteFetchStatement), 4%nat, 4%nat, 9223372037928517668)];
[((BN Statement), 6%nat, 4%nat, 9223372037928517668); ((BP (Nt MapAccess)), 1%nat, 1%nat, 9223372037928517732); ((BN MapAccess), 0%nat, 0%nat, 9223372037928517732)];
[((BN Statement), 7%nat, 4%nat, 9223372037928517668); ((BP (Nt MapAccess)), 0%nat, 0%nat, 9223372037928517732); ((BP (Nt MapAccess)), 1%nat, 0%nat, 9223372037928517732); ((BN MapAccess), 0%nat, 0%nat, 9223372037928517732)];
[((BN Statement), 8%nat, 4%nat, 9223372037928517668)];
[((BN Statement), 15%nat, 4%nat, 9223372037928517668); ((BP (Nt PatternMatchClause)), 1%nat, 1%nat, 1073741856); ((BN PatternMatchClause), 0%nat, 0%nat, 1073741856); ((BN PatternMatchClause), 1%nat, 0%nat, 1073741856)];
[((BP (Nt PatternMatchClause)), 0%nat, 1%nat, 1073741856)];
[((BN PatternMatchClause), 1%nat, 4%nat, 9223372037928517664)];
[((BN ComponentParameters), 3%nat, 4%nat, 9406056978024759296)];
[((BN TransitionDefinition), 0%nat, 4%nat, 9223653529011355648)];
[((BN ProcedureDefinition), 0%nat, 4%nat, 9223653529011355648)];
[((BN ContractDefinition), 1%nat, 4%nat, 9223372036854775808); ((BP (Nt ComponentDefinition)), 1%nat, 1%nat, 9223653529011355648); ((BN ComponentDefinition), 0%nat, 0%nat, 9223653529011355648); ((BN ComponentDefinition), 1%nat, 0%nat, 9223653529011355648); ((BN TransitionDefinition), 0%nat, 0%nat, 9223653529011355648); ((BN ProcedureDefinition), 0%nat, 0%nat, 9223653529011355648)];
[((BN ContractDefinition), 2%nat, 4%nat, 9223372036854775808); ((BN ContractDefinition), 3%nat, 4%nat, 9223372036854775808); ((BP (Nt ContractField)), 1%nat, 1%nat, 9223653803889262592); ((BP (Nt ComponentDefinition)), 0%nat, 0%nat, 9223653529011355648); ((BP (Nt ComponentDefinition)), 1%nat, 0%nat, 9223653529011355648); ((BN ContractField), 0%nat, 0%nat, 9223653803889262592); ((BN ComponentDefinition), 0%nat, 0%nat, 9223653529011355648); ((BN ComponentDefinition), 1%nat, 0%nat, 9223653529011355648); ((BN TransitionDefinition), 0%nat, 0%nat, 9223653529011355648); ((BN ProcedureDefinition), 0%nat, 0%nat, 9223653529011355648)];
[((BN ContractDefinition), 4%nat, 4%nat, 9223372036854775808); ((BN ContractDefinition), 5%nat, 4%nat, 9223372036854775808); ((BN ContractDefinition), 6%nat, 4%nat, 9223372036854775808); ((BN ContractDefinition), 7%nat, 4%nat, 9223372036854775808); ((BP (Nt ComponentDefinition)), 0%nat, 0%nat, 9223653529011355648); ((BP (Nt ComponentDefinition)), 1%nat, 0%nat, 9223653529011355648); ((BP (Nt ContractField)), 0%nat, 0%nat, 9223653803889262592); ((BP (Nt ContractField)), 1%nat, 0%nat, 9223653803889262592); ((BN ComponentDefinition), 0%nat, 0%nat, 9223653529011355648); ((BN ComponentDefinition), 1%nat, 0%nat, 9223653529011355648); ((BN ContractField), 0%nat, 0%nat, 9223653803889262592); ((BN TransitionDefinition), 0%nat, 0%nat, 9223653529011355648); ((BN ProcedureDefinition), 0%nat, 0%nat, 9223653529011355648)];
[((BP (Nt ComponentDefinition)), 0%nat, 1%nat, 9223653529011355648)];
[((BP (Nt ContractField)), 0%nat, 1%nat, 9223653803889262592)];
[((BN ContractField), 0%nat, 4%nat, 9223653803889262592)];
[((BN AddressType), 2%nat, 5%nat, 9668428394861230884)];
[((BN Program), 3%nat, 5%nat, 9223372036854775808)];
[((BN LibrarySingleDefinition), 1%nat, 5%nat, 9223407229883908096)];
[((BP (Nt TypeAlternativeClause)), 1%nat, 2%nat, 9223407229883908128)];
[((BN FullExpression), 0%nat, 5%nat, 9223688998126362660); ((BN FullExpression), 0%nat, 0%nat, 9223688998126362660); ((BN FullExpression), 1%nat, 0%nat, 9223688998126362660); ((BN FullExpression), 2%nat, 0%nat, 9223688998126362660); ((BN FullExpression), 3%nat, 0%nat, 9223688998126362660); ((BN FullExpression), 4%nat, 0%nat, 9223688998126362660); ((BN FullExpression), 5%nat, 0%nat, 9223688998126362660); ((BN FullExpression), 6%nat, 0%nat, 9223688998126362660); ((BN FullExpression), 7%nat, 0%nat, 9223688998126362660); ((BN FullExpression), 8%nat, 0%nat, 9223688998126362660); ((BN FullExpression), 9%nat, 0%nat, 9223688998126362660); ((BN FullExpression), 10%nat, 0%nat, 9223688998126362660); ((BN FullExpression), 11%nat, 0%nat, 9223688998126362660); ((BN FullExpression), 12%nat, 0%nat, 9223688998126362660); ((BN FullExpression), 13%nat, 0%nat, 9223688998126362660); ((BN FullExpression), 14%nat, 0%nat, 9223688998126362660); ((BN FullExpression), 15%nat, 0%nat, 9223688998126362660); ((BN VariableIdentifier), 0%nat, 0%nat, 9478142514511749156); ((BN VariableIdentifier), 1%nat, 0%nat, 9478142514511749156); ((BN VariableIdentifier), 2%nat, 0%nat, 9478142514511749156); ((BN AtomicExpression), 0%nat, 0%nat, 9223688998126362660); ((BN AtomicExpression), 1%nat, 0%nat, 9223688998126362660); ((BN MetaIdentifier), 0%nat, 0%nat, 9478142514511750180); ((BN MetaIdentifier), 1%nat, 0%nat, 9478142514511750180); ((BN MetaIdentifier), 2%nat, 0%nat, 9478142514511750180); ((BN MetaIdentifier), 3%nat, 0%nat, 9478142514511750180); ((BN RegularId), 0%nat, 0%nat, 9478142514511749156); ((BN SpecialId), 0%nat, 0%nat, 9478142514511749156); ((BN TypeNameIdentifier), 0%nat, 0%nat, 9482646114139120692); ((BN TypeNameIdentifier), 1%nat, 0%nat, 9482646114139120692); ((BN TypeNameIdentifier), 2%nat, 0%nat, 9482646114139120692); ((BN ValueLiteral), 0%nat, 0%nat, 9223688998126362660); ((BN ValueLiteral), 1%nat, 0%nat, 9223688998126362660); ((BN ValueLiteral), 2%nat, 0%nat, 9223688998126362660); ((BN ValueLiteral), 3%nat, 0%nat, 9223688998126362660); ((BN HexNumber), 0%nat, 0%nat, 9223688998126362676); ((BN ByteString), 0%nat, 0%nat, 9482646114139120692); ((BN TypeOrEnumLikeIdentifierId), 0%nat, 0%nat, 9482646114139120692); ((BN StringLiteral), 0%nat, 0%nat, 9223688998126362660)];
[((BN FullExpression), 1%nat, 5%nat, 9223688998126362660)];
[((BN FullExpression), 2%nat, 5%nat, 9223688998126362660)];
[((BN FullExpression), 9%nat, 5%nat, 9223688998126362660)];
[((BP (Nt PatternMatchExpressionClause)), 1%nat, 2%nat, 1073741856)];
[((BN Statement), 5%nat, 5%nat, 9223372037928517668)];
[((BN RemoteFetchStatement), 0%nat, 5%nat, 9223372037928517668); ((BN RemoteFetchStatement), 2%nat, 5%nat, 9223372037928517668); ((BN VariableIdentifier), 0%nat, 0%nat, 9223372037928517668); ((BN VariableIdentifier), 1%nat, 0%nat, 9223372037928517668); ((BN VariableIdentifier), 2%nat, 0%nat, 9223372037928517668); ((BN RegularId), 0%nat, 0%nat, 9223372037928517732); ((BN SpecialId), 0%nat, 0%nat, 9223372037928517668); ((BN TypeNameIdentifier), 0%nat, 0%nat, 16); ((BN TypeNameIdentifier), 1%nat, 0%nat, 16); ((BN TypeNameIdentifier), 2%nat, 0%nat, 16); ((BN ByteString), 0%nat, 0%nat, 16); ((BN TypeOrEnumLikeIdentifierId), 0%nat, 0%nat, 16)];
[((BN RemoteFetchStatement), 1%nat, 5%nat, 9223372037928517668); ((BN SpecialId), 0%nat, 0%nat, 9223372037928517668)];
[((BN RemoteFetchStatement), 3%nat, 5%nat, 9223372037928517668)];
[((BN RemoteFetchStatement), 4%nat, 5%nat, 9223372037928517668); ((BN AddressType), 0%nat, 0%nat, 9223372037928517668); ((BN AddressType), 1%nat, 0%nat, 9223372037928517668); ((BN AddressType), 2%nat, 0%nat, 9223372037928517668); ((BN AddressType), 3%nat, 0%nat, 9223372037928517668); ((BN AddressType), 4%nat, 0%nat, 9223372037928517668); ((BN TypeNameIdentifier), 0%nat, 0%nat, 536870912); ((BN TypeNameIdentifier), 1%nat, 0%nat, 536870912); ((BN TypeNameIdentifier), 2%nat, 0%nat, 536870912); ((BN ByteString), 0%nat, 0%nat, 536870912); ((BN TypeOrEnumLikeIdentifierId), 0%nat, 0%nat, 536870912)];
[((BN Statement), 7%nat, 5%nat, 9223372037928517668); ((BP (Nt MapAccess)), 1%nat, 1%nat, 9223372037928517732); ((BN MapAccess), 0%nat, 0%nat, 9223372037928517732)];
[((BN Statement), 15%nat, 5%nat, 9223372037928517668)];
[((BP (Nt PatternMatchClause)), 1%nat, 2%nat, 1073741856)];
[((BP (Nt ComponentDefinition)), 1%nat, 2%nat, 9223653529011355648)];
[((BN ContractDefinition), 3%nat, 5%nat, 9223372036854775808); ((BP (Nt ComponentDefinition)), 1%nat, 1%nat, 9223653529011355648); ((BN ComponentDefinition), 0%nat, 0%nat, 9223653529011355648); ((BN ComponentDefinition), 1%nat, 0%nat, 9223653529011355648); ((BN TransitionDefinition), 0%nat, 0%nat, 9223653529011355648); ((BN ProcedureDefinition), 0%nat, 0%nat, 9223653529011355648)];
[((BP (Nt ContractField)), 1%nat, 2%nat, 9223653803889262592)];
[((BN ContractDefinition), 5%nat, 5%nat, 9223372036854775808); ((BP (Nt ComponentDefinition)), 1%nat, 1%nat, 9223653529011355648); ((BN ComponentDefinition), 0%nat, 0%nat, 9223653529011355648); ((BN ComponentDefinition), 1%nat, 0%nat, 9223653529011355648); ((BN TransitionDefinition), 0%nat, 0%nat, 9223653529011355648); ((BN ProcedureDefinition), 0%nat, 0%nat, 9223653529011355648)];
[((BN ContractDefinition), 6%nat, 5%nat, 9223372036854775808); ((BN ContractDefinition), 7%nat, 5%nat, 9223372036854775808); ((BP (Nt ContractField)), 1%nat, 1%nat, 9223653803889262592); ((BP (Nt ComponentDefinition)), 0%nat, 0%nat, 9223653529011355648); ((BP (Nt ComponentDefinition)), 1%nat, 0%nat, 9223653529011355648); ((BN ContractField), 0%nat, 0%nat, 9223653803889262592); ((BN ComponentDefinition), 0%nat, 0%nat, 9223653529011355648); ((BN ComponentDefinition), 1%nat, 0%nat, 9223653529011355648); ((BN TransitionDefinition), 0%nat, 0%nat, 9223653529011355648); ((BN ProcedureDefinition), 0%nat, 0%nat, 9223653529011355648)];
[((BN FullExpression), 0%nat, 6%nat, 9223688998126362660)];
[((BN FullExpression), 1%nat, 6%nat, 9223688998126362660); ((BN FullExpression), 0%nat, 0%nat, 9223688998126362660); ((BN FullExpression), 1%nat, 0%nat, 9223688998126362660); ((BN FullExpression), 2%nat, 0%nat, 9223688998126362660); ((BN FullExpression), 3%nat, 0%nat, 9223688998126362660); ((BN FullExpression), 4%nat, 0%nat, 9223688998126362660); ((BN FullExpression), 5%nat, 0%nat, 9223688998126362660); ((BN FullExpression), 6%nat, 0%nat, 9223688998126362660); ((BN FullExpression), 7%nat, 0%nat, 9223688998126362660); ((BN FullExpression), 8%nat, 0%nat, 9223688998126362660); ((BN FullExpression), 9%nat, 0%nat, 9223688998126362660); ((BN FullExpression), 10%nat, 0%nat, 9223688998126362660); ((BN FullExpression), 11%nat, 0%nat, 9223688998126362660); ((BN FullExpression), 12%nat, 0%nat, 9223688998126362660); ((BN FullExpression), 13%nat, 0%nat, 9223688998126362660); ((BN FullExpression), 14%nat, 0%nat, 9223688998126362660); ((BN FullExpression), 15%nat, 0%nat, 9223688998126362660); ((BN VariableIdentifier), 0%nat, 0%nat, 9478142514511749156); ((BN VariableIdentifier), 1%nat, 0%nat, 9478142514511749156); ((BN VariableIdentifier), 2%nat, 0%nat, 9478142514511749156); ((BN AtomicExpression), 0%nat, 0%nat, 9223688998126362660); ((BN AtomicExpression), 1%nat, 0%nat, 9223688998126362660); ((BN MetaIdentifier), 0%nat, 0%nat, 9478142514511750180); ((BN MetaIdentifier), 1%nat, 0%nat, 9478142514511750180); ((BN MetaIdentifier), 2%nat, 0%nat, 9478142514511750180); ((BN MetaIdentifier), 3%nat, 0%nat, 9478142514511750180); ((BN RegularId), 0%nat, 0%nat, 9478142514511749156); ((BN SpecialId), 0%nat, 0%nat, 9478142514511749156); ((BN TypeNameIdentifier), 0%nat, 0%nat, 9482646114139120692); ((BN TypeNameIdentifier), 1%nat, 0%nat, 9482646114139120692); ((BN TypeNameIdentifier), 2%nat, 0%nat, 9482646114139120692); ((BN ValueLiteral), 0%nat, 0%nat, 9223688998126362660); ((BN ValueLiteral), 1%nat, 0%nat, 9223688998126362660); ((BN ValueLiteral), 2%nat, 0%nat, 9223688998126362660); ((BN ValueLiteral), 3%nat, 0%nat, 9223688998126362660); ((BN HexNumber), 0%nat, 0%nat, 9223688998126362676); ((BN ByteString), 0%nat, 0%nat, 9482646114139120692); ((BN TypeOrEnumLikeIdentifierId), 0%nat, 0%nat, 9482646114139120692); ((BN StringLiteral), 0%nat, 0%nat, 9223688998126362660)];
[((BN FullExpression), 2%nat, 6%nat, 9223688998126362660); ((BN FullExpression), 0%nat, 0%nat, 9223688998126362660); ((BN FullExpression), 1%nat, 0%nat, 9223688998126362660); ((BN FullExpression), 2%nat, 0%nat, 9223688998126362660); ((BN FullExpression), 3%nat, 0%nat, 9223688998126362660); ((BN FullExpression), 4%nat, 0%nat, 9223688998126362660); ((BN FullExpression), 5%nat, 0%nat, 9223688998126362660); ((BN FullExpression), 6%nat, 0%nat, 9223688998126362660); ((BN FullExpression), 7%nat, 0%nat, 9223688998126362660); ((BN FullExpression), 8%nat, 0%nat, 9223688998126362660); ((BN FullExpression), 9%nat, 0%nat, 9223688998126362660); ((BN FullExpression), 10%nat, 0%nat, 9223688998126362660); ((BN FullExpression), 11%nat, 0%nat, 9223688998126362660); ((BN FullExpression), 12%nat, 0%nat, 9223688998126362660); ((BN FullExpression), 13%nat, 0%nat, 9223688998126362660); ((BN FullExpression), 14%nat, 0%nat, 9223688998126362660); ((BN FullExpression), 15%nat, 0%nat, 9223688998126362660); ((BN VariableIdentifier), 0%nat, 0%nat, 9478142514511749156); ((BN VariableIdentifier), 1%nat, 0%nat, 9478142514511749156); ((BN VariableIdentifier), 2%nat, 0%nat, 9478142514511749156); ((BN AtomicExpression), 0%nat, 0%nat, 9223688998126362660); ((BN AtomicExpression), 1%nat, 0%nat, 9223688998126362660); ((BN MetaIdentifier), 0%nat, 0%nat, 9478142514511750180); ((BN MetaIdentifier), 1%nat, 0%nat, 9478142514511750180); ((BN MetaIdentifier), 2%nat, 0%nat, 9478142514511750180); ((BN MetaIdentifier), 3%nat, 0%nat, 9478142514511750180); ((BN RegularId), 0%nat, 0%nat, 9478142514511749156); ((BN SpecialId), 0%nat, 0%nat, 9478142514511749156); ((BN TypeNameIdentifier), 0%nat, 0%nat, 9482646114139120692); ((BN TypeNameIdentifier), 1%nat, 0%nat, 9482646114139120692); ((BN TypeNameIdentifier), 2%nat, 0%nat, 9482646114139120692); ((BN ValueLiteral), 0%nat, 0%nat, 9223688998126362660); ((BN ValueLiteral), 1%nat, 0%nat, 9223688998126362660); ((BN ValueLiteral), 2%nat, 0%nat, 9223688998126362660); ((BN ValueLiteral), 3%nat, 0%nat, 9223688998126362660); ((BN HexNumber), 0%nat, 0%nat, 9223688998126362676); ((BN ByteString), 0%nat, 0%nat, 9482646114139120692); ((BN TypeOrEnumLikeIdentifierId), 0%nat, 0%nat, 9482646114139120692); ((BN StringLiteral), 0%nat, 0%nat, 9223688998126362660)];
[((BN RemoteFetchStatement), 0%nat, 6%nat, 9223372037928517668)];
[((BN VariableIdentifier), 0%nat, 1%nat, 9223372037928517668); ((BN RemoteFetchStatement), 2%nat, 6%nat, 9223372037928517668); ((BP (Nt MapAccess)), 0%nat, 0%nat, 9223372037928517732); ((BP (Nt MapAccess)), 1%nat, 0%nat, 9223372037928517732); ((BN MapAccess), 0%nat, 0%nat, 9223372037928517732)];
[((BN RemoteFetchStatement), 1%nat, 6%nat, 9223372037928517668)];
[((BN RemoteFetchStatement), 3%nat, 6%nat, 9223372037928517668); ((BN RegularId), 0%nat, 0%nat, 64)];
[((BN RemoteFetchStatement), 4%nat, 6%nat, 9223372037928517668)];
[((BN ContractDefinition), 7%nat, 6%nat, 9223372036854775808); ((BP (Nt ComponentDefinition)), 1%nat, 1%nat, 9223653529011355648); ((BN ComponentDefinition), 0%nat, 0%nat, 9223653529011355648); ((BN ComponentDefinition), 1%nat, 0%nat, 9223653529011355648); ((BN TransitionDefinition), 0%nat, 0%nat, 9223653529011355648); ((BN ProcedureDefinition), 0%nat, 0%nat, 9223653529011355648)];
[((BN FullExpression), 1%nat, 7%nat, 9223688998126362660)];
[((BN FullExpression), 2%nat, 7%nat, 9223688998126362660)];
[((BN RemoteFetchStatement), 2%nat, 7%nat, 9223372037928517668); ((BP (Nt MapAccess)), 1%nat, 1%nat, 9223372037928517732); ((BN MapAccess), 0%nat, 0%nat, 9223372037928517732)];
[((BN RemoteFetchStatement), 3%nat, 7%nat, 9223372037928517668); ((BP (Nt MapAccess)), 0%nat, 0%nat, 9223372037928517732); ((BP (Nt MapAccess)), 1%nat, 0%nat, 9223372037928517732); ((BN MapAccess), 0%nat, 0%nat, 9223372037928517732)];
[((BN RemoteFetchStatement), 3%nat, 8%nat, 9223372037928517668); ((BP (Nt MapAccess)), 1%nat, 1%nat, 9223372037928517732); ((BN MapAccess), 0%nat, 0%nat, 9223372037928517732)]
].

Definition first_table : list (N * N) := [
(0, 1); (1, 2); (2, 4); (3, 8); (4, 16); (5, 32); (6, 64); (7, 128); (8, 256); (9, 512); (10, 1024); (11, 2048); (12, 4096); (13, 8192); (14, 16384); (15, 32768); (16, 65536); (17, 131072); (18, 262144); (19, 524288); (20, 1048576); (21, 2097152); (22, 4194304); (23, 8388608); (24, 16777216); (25, 33554432); (26, 67108864); (27, 134217728); (28, 268435456); (29, 536870912); (30, 1073741824); (31, 2147483648); (32, 4294967296); (33, 8589934592); (34, 17179869184); (35, 34359738368); (36, 68719476736); (37, 137438953472); (38, 274877906944); (39, 549755813888); (40, 1099511627776); (41, 2199023255552); (42, 4398046511104); (43, 8796093022208); (44, 17592186044416); (45, 35184372088832); (46, 70368744177664); (47, 140737488355328); (48, 281474976710656); (49, 562949953421312); (50, 1125899906842624); (51, 2251799813685248); (52, 4503599627370496); (53, 9007199254740992); (54, 18014398509481984); (55, 36028797018963968); (56, 72057594037927936); (57, 144115188075855872); (58, 288230376151711744); (100, 2251799813685248); (101, 146367125328494592); (102, 146367125328494592); (103, 33554432); (104, 156500224490078208); (105, 254453516385386496); (106, 254453516385386752); (107, 444739396739006720); (108, 444739396739006720); (109, 444739396739006720); (110, 444739396734812416); (111, 146367125328494592); (112, 274877906944); (113, 4096); (114, 274877906944); (115, 156500224490078464); (116, 156509020583100672); (117, 156509020583100672); (118, 17592186044416); (119, 16777216); (120, 35184439197696); (121, 36028797018963968); (122, 8); (123, 32); (124, 156509020583100672); (125, 1024); (126, 283163970796782592); (127, 32); (128, 192529021511139328); (129, 192529021511139584); (130, 4); (131, 254453516385386496); (132, 282038064103030784); (133, 173951673046138880); (134, 182403172524883968); (135, 4); (136, 182403172524883968); (137, 256); (138, 182395922347458560); (139, 32); (140, 36028797018963968); (141, 64); (142, 36028797018963968); (143, 4096); (144, 256); (145, 281492156579840); (146, 17179869184); (147, 281474976710656); (148, 182403173598625792); (149, 8589934592); (150, 274877906944); (151, 536870912); (152, 9007199254740992); (153, 4503599627370496); (154, 36028797018963968); (155, 72057594037927936); (156, 144115188075855872); (157, 288230376151711744); (158, 18014398509481984); (302, 146367125328494592); (305, 254453516385386496); (310, 444739396734812416); (313, 4096); (317, 156509020583100672); (320, 35184439197696); (323, 32); (327, 32); (329, 192529021511139584); (330, 4); (335, 4); (339, 32); (341, 64); (343, 4096); (345, 281492156579840); (350, 274877906944); (400, 2251799813685248); (401, 146367125328494592); (402, 146367125328494592); (403, 33554432); (404, 156500224490078208); (405, 254453516385386496); (406, 254453516385386752); (407, 444739396739006720); (408, 444739396739006720); (409, 444739396739006720); (410, 444739396734812416); (411, 146367125328494592); (412, 274877906944); (413, 4096); (414, 274877906944); (415, 156500224490078464); (416, 156509020583100672); (417, 156509020583100672); (418, 17592186044416); (419, 16777216); (420, 35184439197696); (421, 36028797018963968); (422, 8); (423, 32); (424, 156509020583100672); (425, 1024); (426, 283163970796782592); (427, 32); (428, 192529021511139328); (429, 192529021511139584); (430, 4); (431, 254453516385386496); (432, 282038064103030784); (433, 173951673046138880); (434, 182403172524883968); (435, 4); (436, 182403172524883968); (437, 256); (438, 182395922347458560); (439, 32); (440, 36028797018963968); (441, 64); (442, 36028797018963968); (443, 4096); (444, 256); (445, 281492156579840); (446, 17179869184); (447, 281474976710656); (448, 182403173598625792); (449, 8589934592); (450, 274877906944); (451, 536870912); (452, 9007199254740992); (453, 4503599627370496); (454, 36028797018963968); (455, 72057594037927936); (456, 144115188075855872); (457, 288230376151711744); (458, 18014398509481984)].

Definition rank_table : list (N * N) := [
(0, 0); (1, 0); (2, 0); (3, 0); (4, 0); (5, 0); (6, 0); (7, 0); (8, 0); (9, 0); (10, 0); (11, 0); (12, 0); (13, 0); (14, 0); (15, 0); (16, 0); (17, 0); (18, 0); (19, 0); (20, 0); (21, 0); (22, 0); (23, 0); (24, 0); (25, 0); (26, 0); (27, 0); (28, 0); (29, 0); (30, 0); (31, 0); (32, 0); (33, 0); (34, 0); (35, 0); (36, 0); (37, 0); (38, 0); (39, 0); (40, 0); (41, 0); (42, 0); (43, 0); (44, 0); (45, 0); (46, 0); (47, 0); (48, 0); (49, 0); (50, 0); (51, 0); (52, 0); (53, 0); (54, 0); (55, 0); (56, 0); (57, 0); (58, 0); (100, 1); (101, 2); (102, 3); (103, 0); (104, 3); (105, 2); (106, 3); (107, 4); (108, 0); (109, 5); (110, 4); (111, 0); (112, 1); (113, 0); (114, 0); (115, 4); (116, 4); (117, 4); (118, 0); (119, 0); (120, 0); (121, 0); (122, 0); (123, 0); (124, 5); (125, 0); (126, 4); (127, 0); (128, 4); (129, 4); (130, 0); (131, 0); (132, 3); (133, 2); (134, 4); (135, 0); (136, 5); (137, 0); (138, 3); (139, 0); (140, 0); (141, 0); (142, 1); (143, 0); (144, 0); (145, 1); (146, 0); (147, 0); (148, 1); (149, 0); (150, 0); (151, 0); (152, 1); (153, 1); (154, 1); (155, 1); (156, 1); (157, 1); (158, 1); (302, 4); (305, 3); (310, 5); (313, 1); (317, 5); (320, 1); (323, 1); (327, 1); (329, 5); (330, 1); (335, 1); (339, 1); (341, 1); (343, 1); (345, 2); (350, 1); (400, 2); (401, 3); (402, 4); (403, 1); (404, 4); (405, 3); (406, 4); (407, 5); (408, 1); (409, 6); (410, 5); (411, 1); (412, 2); (413, 1); (414, 1); (415, 5); (416, 5); (417, 5); (418, 1); (419, 1); (420, 1); (421, 1); (422, 1); (423, 1); (424, 6); (425, 1); (426, 5); (427, 1); (428, 5); (429, 5); (430, 1); (431, 1); (432, 4); (433, 3); (434, 5); (435, 1); (436, 6); (437, 1); (438, 4); (439, 1); (440, 1); (441, 1); (442, 2); (443, 1); (444, 1); (445, 2); (446, 1); (447, 1); (448, 2); (449, 1); (450, 1); (451, 1); (452, 2); (453, 2); (454, 2); (455, 2); (456, 2); (457, 2); (458, 2)].

(** production used to build a shortest tree of each symbol, and its depth *)
Definition depth_table : list (N * (nat * N)) := [
(100, (0%nat, 1)); (101, (1%nat, 1)); (102, (0%nat, 2)); (103, (1%nat, 4)); (104, (3%nat, 1)); (105, (0%nat, 2)); (106, (2%nat, 1)); (107, (0%nat, 2)); (108, (1%nat, 3)); (109, (1%nat, 3)); (110, (1%nat, 2)); (111, (0%nat, 2)); (112, (0%nat, 5)); (113, (0%nat, 5)); (114, (0%nat, 4)); (115, (0%nat, 2)); (116, (0%nat, 2)); (117, (1%nat, 2)); (118, (0%nat, 3)); (119, (0%nat, 2)); (120, (2%nat, 2)); (121, (0%nat, 5)); (122, (0%nat, 4)); (123, (0%nat, 2)); (124, (1%nat, 3)); (125, (0%nat, 1)); (126, (10%nat, 2)); (127, (0%nat, 3)); (128, (0%nat, 1)); (129, (0%nat, 1)); (130, (0%nat, 4)); (131, (1%nat, 3)); (132, (0%nat, 3)); (133, (0%nat, 2)); (134, (10%nat, 1)); (135, (0%nat, 2)); (136, (0%nat, 2)); (137, (0%nat, 4)); (138, (0%nat, 2)); (139, (0%nat, 2)); (140, (1%nat, 2)); (141, (0%nat, 3)); (142, (0%nat, 6)); (143, (0%nat, 7)); (144, (0%nat, 1)); (145, (0%nat, 4)); (146, (0%nat, 3)); (147, (0%nat, 3)); (148, (0%nat, 1)); (149, (0%nat, 2)); (150, (0%nat, 6)); (151, (0%nat, 3)); (152, (0%nat, 1)); (153, (0%nat, 1)); (154, (0%nat, 1)); (155, (0%nat, 1)); (156, (0%nat, 1)); (157, (0%nat, 1)); (158, (0%nat, 1)); (302, (0%nat, 3)); (305, (0%nat, 3)); (310, (0%nat, 3)); (313, (0%nat, 6)); (317, (0%nat, 3)); (320, (0%nat, 3)); (323, (0%nat, 3)); (327, (0%nat, 4)); (329, (0%nat, 2)); (330, (0%nat, 5)); (335, (0%nat, 3)); (339, (0%nat, 3)); (341, (0%nat, 4)); (343, (0%nat, 8)); (345, (0%nat, 5)); (350, (0%nat, 7)); (400, (0%nat, 2)); (401, (0%nat, 2)); (402, (0%nat, 3)); (403, (0%nat, 5)); (404, (0%nat, 2)); (405, (0%nat, 3)); (406, (0%nat, 2)); (407, (0%nat, 3)); (408, (0%nat, 4)); (409, (0%nat, 4)); (410, (0%nat, 3)); (411, (0%nat, 3)); (412, (0%nat, 6)); (413, (0%nat, 6)); (414, (0%nat, 5)); (415, (0%nat, 3)); (416, (0%nat, 3)); (417, (0%nat, 3)); (418, (0%nat, 4)); (419, (0%nat, 3)); (420, (0%nat, 3)); (421, (0%nat, 6)); (422, (0%nat, 5)); (423, (0%nat, 3)); (424, (0%nat, 4)); (425, (0%nat, 2)); (426, (0%nat, 3)); (427, (0%nat, 4)); (428, (0%nat, 2)); (429, (0%nat, 2)); (430, (0%nat, 5)); (431, (0%nat, 4)); (432, (0%nat, 4)); (433, (0%nat, 3)); (434, (0%nat, 2)); (435, (0%nat, 3)); (436, (0%nat, 3)); (437, (0%nat, 5)); (438, (0%nat, 3)); (439, (0%nat, 3)); (440, (0%nat, 3)); (441, (0%nat, 4)); (442, (0%nat, 7)); (443, (0%nat, 8)); (444, (0%nat, 2)); (445, (0%nat, 5)); (446, (0%nat, 4)); (447, (0%nat, 4)); (448, (0%nat, 2)); (449, (0%nat, 3)); (450, (0%nat, 7)); (451, (0%nat, 4)); (452, (0%nat, 2)); (453, (0%nat, 2)); (454, (0%nat, 2)); (455, (0%nat, 2)); (456, (0%nat, 2)); (457, (0%nat, 2)); (458, (0%nat, 2))].

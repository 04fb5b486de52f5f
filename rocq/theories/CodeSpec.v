(* Texts in the encodings of a console, apart from Python's tables. *)
From Verif Require Import Base Lit TextModel Utf8Model.
Local Open Scope list_scope.

(* the characters of the codepage 437 beyond ASCII and their bytes, by the blocks of
   Unicode: Latin 1, Latin extended, Greek, superscripts and currency, mathematics
   and technical, box drawing, block elements and shapes *)
Definition ibm437 : list (N * N) :=
  [(160, 255); (161, 173); (162, 155); (163, 156); (165, 157); (170, 166); (171, 174); (172, 170); (176, 248); (177, 241); (178, 253); (181, 230); (183, 250); (186, 167); (187, 175); (188, 172); (189, 171); (191, 168); (196, 142); (197, 143); (198, 146); (199, 128); (201, 144); (209, 165); (214, 153); (220, 154); (223, 225); (224, 133); (225, 160); (226, 131); (228, 132); (229, 134); (230, 145); (231, 135); (232, 138); (233, 130); (234, 136); (235, 137); (236, 141); (237, 161); (238, 140); (239, 139); (241, 164); (242, 149); (243, 162); (244, 147); (246, 148); (247, 246); (249, 151); (250, 163); (251, 150); (252, 129); (255, 152);
   (402, 159);
   (915, 226); (920, 233); (931, 228); (934, 232); (937, 234); (945, 224); (948, 235); (949, 238); (960, 227); (963, 229); (964, 231); (966, 237);
   (8319, 252); (8359, 158);
   (8729, 249); (8730, 251); (8734, 236); (8745, 239); (8776, 247); (8801, 240); (8804, 243); (8805, 242); (8976, 169); (8992, 244); (8993, 245);
   (9472, 196); (9474, 179); (9484, 218); (9488, 191); (9492, 192); (9496, 217); (9500, 195); (9508, 180); (9516, 194); (9524, 193); (9532, 197); (9552, 205); (9553, 186); (9554, 213); (9555, 214); (9556, 201); (9557, 184); (9558, 183); (9559, 187); (9560, 212); (9561, 211); (9562, 200); (9563, 190); (9564, 189); (9565, 188); (9566, 198); (9567, 199); (9568, 204); (9569, 181); (9570, 182); (9571, 185); (9572, 209); (9573, 210); (9574, 203); (9575, 207); (9576, 208); (9577, 202); (9578, 216); (9579, 215); (9580, 206);
   (9600, 223); (9604, 220); (9608, 219); (9612, 221); (9616, 222); (9617, 176); (9618, 177); (9619, 178); (9632, 254)]%N.
(* the bytes of a text *)
Definition written437 (text : list N) (b : bytes) : Prop := Forall2 (fun c x => (c = x /\ (c < 128)%N) \/ In (c, x) ibm437) text b.
Definition console_text (encoding text : list N) (b : bytes) : Prop :=
  (encoding = lit "437" /\ written437 text b) \/ (encoding = lit "utf-8" /\ utf8_encode text = Ok b).

(** Model of src/protocol/patterns.c (token sequences transcribed mechanically). *)
From Verif Require Import Base.

(** src/protocol/internal.h:589-598 *)
Definition TOKEN_END : Z := 0.
Definition TOKEN_S : Z := 1.
Definition TOKEN_E : Z := 2.
Definition TOKEN_EE : Z := 3.
Definition TOKEN_ES : Z := 4.
Definition TOKEN_SE : Z := 5.
Definition TOKEN_SS : Z := 6.
Definition TOKEN_F : Z := 7.
Definition TOKEN_FF : Z := 8.
Definition TOKEN_FLIP_DIR : Z := 255.

(** src/protocol/internal.h:601-634 *)
Definition FLAG_LOCAL_STATIC : Z := 1.
Definition FLAG_LOCAL_EPHEMERAL : Z := 2.
Definition FLAG_LOCAL_REQUIRED : Z := 4.
Definition FLAG_LOCAL_EPHEM_REQ : Z := 8.
Definition FLAG_LOCAL_HYBRID : Z := 16.
Definition FLAG_LOCAL_HYBRID_REQ : Z := 32.
Definition FLAG_REMOTE_STATIC : Z := 256.
Definition FLAG_REMOTE_EPHEMERAL : Z := 512.
Definition FLAG_REMOTE_REQUIRED : Z := 1024.
Definition FLAG_REMOTE_EPHEM_REQ : Z := 2048.
Definition FLAG_REMOTE_HYBRID : Z := 4096.
Definition FLAG_REMOTE_HYBRID_REQ : Z := 8192.

(** src/protocol/patterns.c:30, the argument being the or of a list of flags *)
Definition FLAGS (l : list Z) : list Z :=
  let x := fold_left Z.lor l 0 in [Z.land x 255; Z.land (Z.shiftr x 8) 255].

(** src/protocol/patterns.c:44-54 *)
Definition noise_pattern_N : list Z :=
  FLAGS [FLAG_LOCAL_EPHEMERAL; FLAG_REMOTE_STATIC; FLAG_REMOTE_REQUIRED] ++
  [TOKEN_E; TOKEN_ES; TOKEN_END].

(** src/protocol/patterns.c:67-80 *)
Definition noise_pattern_K : list Z :=
  FLAGS [FLAG_LOCAL_STATIC; FLAG_LOCAL_EPHEMERAL; FLAG_LOCAL_REQUIRED; FLAG_REMOTE_STATIC; FLAG_REMOTE_REQUIRED] ++
  [TOKEN_E; TOKEN_ES; TOKEN_SS; TOKEN_END].

(** src/protocol/patterns.c:92-105 *)
Definition noise_pattern_X : list Z :=
  FLAGS [FLAG_LOCAL_STATIC; FLAG_LOCAL_EPHEMERAL; FLAG_REMOTE_STATIC; FLAG_REMOTE_REQUIRED] ++
  [TOKEN_E; TOKEN_ES; TOKEN_S; TOKEN_SS; TOKEN_END].

(** src/protocol/patterns.c:116-127 *)
Definition noise_pattern_NN : list Z :=
  FLAGS [FLAG_LOCAL_EPHEMERAL; FLAG_REMOTE_EPHEMERAL] ++
  [TOKEN_E; TOKEN_FLIP_DIR; TOKEN_E; TOKEN_EE; TOKEN_END].

(** src/protocol/patterns.c:140-154 *)
Definition noise_pattern_NK : list Z :=
  FLAGS [FLAG_LOCAL_EPHEMERAL; FLAG_REMOTE_STATIC; FLAG_REMOTE_EPHEMERAL; FLAG_REMOTE_REQUIRED] ++
  [TOKEN_E; TOKEN_ES; TOKEN_FLIP_DIR; TOKEN_E; TOKEN_EE; TOKEN_END].

(** src/protocol/patterns.c:165-179 *)
Definition noise_pattern_NX : list Z :=
  FLAGS [FLAG_LOCAL_EPHEMERAL; FLAG_REMOTE_STATIC; FLAG_REMOTE_EPHEMERAL] ++
  [TOKEN_E; TOKEN_FLIP_DIR; TOKEN_E; TOKEN_EE; TOKEN_S; TOKEN_ES; TOKEN_END].

(** src/protocol/patterns.c:191-206 *)
Definition noise_pattern_XN : list Z :=
  FLAGS [FLAG_LOCAL_STATIC; FLAG_LOCAL_EPHEMERAL; FLAG_REMOTE_EPHEMERAL] ++
  [TOKEN_E; TOKEN_FLIP_DIR; TOKEN_E; TOKEN_EE; TOKEN_FLIP_DIR; TOKEN_S; TOKEN_SE; TOKEN_END].

(** src/protocol/patterns.c:220-238 *)
Definition noise_pattern_XK : list Z :=
  FLAGS [FLAG_LOCAL_STATIC; FLAG_LOCAL_EPHEMERAL; FLAG_REMOTE_STATIC; FLAG_REMOTE_EPHEMERAL; FLAG_REMOTE_REQUIRED] ++
  [TOKEN_E; TOKEN_ES; TOKEN_FLIP_DIR; TOKEN_E; TOKEN_EE; TOKEN_FLIP_DIR; TOKEN_S; TOKEN_SE; TOKEN_END].

(** src/protocol/patterns.c:250-268 *)
Definition noise_pattern_XX : list Z :=
  FLAGS [FLAG_LOCAL_STATIC; FLAG_LOCAL_EPHEMERAL; FLAG_REMOTE_STATIC; FLAG_REMOTE_EPHEMERAL] ++
  [TOKEN_E; TOKEN_FLIP_DIR; TOKEN_E; TOKEN_EE; TOKEN_S; TOKEN_ES; TOKEN_FLIP_DIR; TOKEN_S; TOKEN_SE; TOKEN_END].

(** src/protocol/patterns.c:281-295 *)
Definition noise_pattern_KN : list Z :=
  FLAGS [FLAG_LOCAL_STATIC; FLAG_LOCAL_EPHEMERAL; FLAG_LOCAL_REQUIRED; FLAG_REMOTE_EPHEMERAL] ++
  [TOKEN_E; TOKEN_FLIP_DIR; TOKEN_E; TOKEN_EE; TOKEN_SE; TOKEN_END].

(** src/protocol/patterns.c:309-327 *)
Definition noise_pattern_KK : list Z :=
  FLAGS [FLAG_LOCAL_STATIC; FLAG_LOCAL_EPHEMERAL; FLAG_LOCAL_REQUIRED; FLAG_REMOTE_STATIC; FLAG_REMOTE_EPHEMERAL; FLAG_REMOTE_REQUIRED] ++
  [TOKEN_E; TOKEN_ES; TOKEN_SS; TOKEN_FLIP_DIR; TOKEN_E; TOKEN_EE; TOKEN_SE; TOKEN_END].

(** src/protocol/patterns.c:340-357 *)
Definition noise_pattern_KX : list Z :=
  FLAGS [FLAG_LOCAL_STATIC; FLAG_LOCAL_EPHEMERAL; FLAG_LOCAL_REQUIRED; FLAG_REMOTE_STATIC; FLAG_REMOTE_EPHEMERAL] ++
  [TOKEN_E; TOKEN_FLIP_DIR; TOKEN_E; TOKEN_EE; TOKEN_SE; TOKEN_S; TOKEN_ES; TOKEN_END].

(** src/protocol/patterns.c:368-382 *)
Definition noise_pattern_IN : list Z :=
  FLAGS [FLAG_LOCAL_STATIC; FLAG_LOCAL_EPHEMERAL; FLAG_REMOTE_EPHEMERAL] ++
  [TOKEN_E; TOKEN_S; TOKEN_FLIP_DIR; TOKEN_E; TOKEN_EE; TOKEN_SE; TOKEN_END].

(** src/protocol/patterns.c:395-413 *)
Definition noise_pattern_IK : list Z :=
  FLAGS [FLAG_LOCAL_STATIC; FLAG_LOCAL_EPHEMERAL; FLAG_REMOTE_STATIC; FLAG_REMOTE_EPHEMERAL; FLAG_REMOTE_REQUIRED] ++
  [TOKEN_E; TOKEN_ES; TOKEN_S; TOKEN_SS; TOKEN_FLIP_DIR; TOKEN_E; TOKEN_EE; TOKEN_SE; TOKEN_END].

(** src/protocol/patterns.c:424-441 *)
Definition noise_pattern_IX : list Z :=
  FLAGS [FLAG_LOCAL_STATIC; FLAG_LOCAL_EPHEMERAL; FLAG_REMOTE_STATIC; FLAG_REMOTE_EPHEMERAL] ++
  [TOKEN_E; TOKEN_S; TOKEN_FLIP_DIR; TOKEN_E; TOKEN_EE; TOKEN_SE; TOKEN_S; TOKEN_ES; TOKEN_END].

(** src/protocol/patterns.c:454-471 *)
Definition noise_pattern_XXfallback : list Z :=
  FLAGS [FLAG_LOCAL_STATIC; FLAG_LOCAL_EPHEMERAL; FLAG_REMOTE_STATIC; FLAG_REMOTE_EPHEMERAL; FLAG_REMOTE_EPHEM_REQ] ++
  [TOKEN_E; TOKEN_EE; TOKEN_S; TOKEN_SE; TOKEN_FLIP_DIR; TOKEN_S; TOKEN_ES; TOKEN_END].

(** src/protocol/patterns.c:483-496 *)
Definition noise_pattern_Xnoidh : list Z :=
  FLAGS [FLAG_LOCAL_STATIC; FLAG_LOCAL_EPHEMERAL; FLAG_REMOTE_STATIC; FLAG_REMOTE_REQUIRED] ++
  [TOKEN_E; TOKEN_S; TOKEN_ES; TOKEN_SS; TOKEN_END].

(** src/protocol/patterns.c:507-521 *)
Definition noise_pattern_NXnoidh : list Z :=
  FLAGS [FLAG_LOCAL_EPHEMERAL; FLAG_REMOTE_STATIC; FLAG_REMOTE_EPHEMERAL] ++
  [TOKEN_E; TOKEN_FLIP_DIR; TOKEN_E; TOKEN_S; TOKEN_EE; TOKEN_ES; TOKEN_END].

(** src/protocol/patterns.c:533-551 *)
Definition noise_pattern_XXnoidh : list Z :=
  FLAGS [FLAG_LOCAL_STATIC; FLAG_LOCAL_EPHEMERAL; FLAG_REMOTE_STATIC; FLAG_REMOTE_EPHEMERAL] ++
  [TOKEN_E; TOKEN_FLIP_DIR; TOKEN_E; TOKEN_S; TOKEN_EE; TOKEN_ES; TOKEN_FLIP_DIR; TOKEN_S; TOKEN_SE; TOKEN_END].

(** src/protocol/patterns.c:564-581 *)
Definition noise_pattern_KXnoidh : list Z :=
  FLAGS [FLAG_LOCAL_STATIC; FLAG_LOCAL_EPHEMERAL; FLAG_LOCAL_REQUIRED; FLAG_REMOTE_STATIC; FLAG_REMOTE_EPHEMERAL] ++
  [TOKEN_E; TOKEN_FLIP_DIR; TOKEN_E; TOKEN_S; TOKEN_EE; TOKEN_SE; TOKEN_ES; TOKEN_END].

(** src/protocol/patterns.c:594-612 *)
Definition noise_pattern_IKnoidh : list Z :=
  FLAGS [FLAG_LOCAL_STATIC; FLAG_LOCAL_EPHEMERAL; FLAG_REMOTE_STATIC; FLAG_REMOTE_EPHEMERAL; FLAG_REMOTE_REQUIRED] ++
  [TOKEN_E; TOKEN_S; TOKEN_ES; TOKEN_SS; TOKEN_FLIP_DIR; TOKEN_E; TOKEN_EE; TOKEN_SE; TOKEN_END].

(** src/protocol/patterns.c:623-640 *)
Definition noise_pattern_IXnoidh : list Z :=
  FLAGS [FLAG_LOCAL_STATIC; FLAG_LOCAL_EPHEMERAL; FLAG_REMOTE_STATIC; FLAG_REMOTE_EPHEMERAL] ++
  [TOKEN_E; TOKEN_S; TOKEN_FLIP_DIR; TOKEN_E; TOKEN_S; TOKEN_EE; TOKEN_SE; TOKEN_ES; TOKEN_END].

(** src/protocol/patterns.c:651-667 *)
Definition noise_pattern_NNhfs : list Z :=
  FLAGS [FLAG_LOCAL_EPHEMERAL; FLAG_LOCAL_HYBRID; FLAG_REMOTE_EPHEMERAL; FLAG_REMOTE_HYBRID] ++
  [TOKEN_E; TOKEN_F; TOKEN_FLIP_DIR; TOKEN_E; TOKEN_F; TOKEN_EE; TOKEN_FF; TOKEN_END].

(** src/protocol/patterns.c:680-699 *)
Definition noise_pattern_NKhfs : list Z :=
  FLAGS [FLAG_LOCAL_EPHEMERAL; FLAG_LOCAL_HYBRID; FLAG_REMOTE_STATIC; FLAG_REMOTE_EPHEMERAL; FLAG_REMOTE_REQUIRED; FLAG_REMOTE_HYBRID] ++
  [TOKEN_E; TOKEN_F; TOKEN_ES; TOKEN_FLIP_DIR; TOKEN_E; TOKEN_F; TOKEN_EE; TOKEN_FF; TOKEN_END].

(** src/protocol/patterns.c:710-729 *)
Definition noise_pattern_NXhfs : list Z :=
  FLAGS [FLAG_LOCAL_EPHEMERAL; FLAG_LOCAL_HYBRID; FLAG_REMOTE_STATIC; FLAG_REMOTE_EPHEMERAL; FLAG_REMOTE_HYBRID] ++
  [TOKEN_E; TOKEN_F; TOKEN_FLIP_DIR; TOKEN_E; TOKEN_F; TOKEN_EE; TOKEN_FF; TOKEN_S; TOKEN_ES; TOKEN_END].

(** src/protocol/patterns.c:741-761 *)
Definition noise_pattern_XNhfs : list Z :=
  FLAGS [FLAG_LOCAL_STATIC; FLAG_LOCAL_EPHEMERAL; FLAG_LOCAL_HYBRID; FLAG_REMOTE_EPHEMERAL; FLAG_REMOTE_HYBRID] ++
  [TOKEN_E; TOKEN_F; TOKEN_FLIP_DIR; TOKEN_E; TOKEN_F; TOKEN_EE; TOKEN_FF; TOKEN_FLIP_DIR; TOKEN_S; TOKEN_SE; TOKEN_END].

(** src/protocol/patterns.c:775-798 *)
Definition noise_pattern_XKhfs : list Z :=
  FLAGS [FLAG_LOCAL_STATIC; FLAG_LOCAL_EPHEMERAL; FLAG_LOCAL_HYBRID; FLAG_REMOTE_STATIC; FLAG_REMOTE_EPHEMERAL; FLAG_REMOTE_REQUIRED; FLAG_REMOTE_HYBRID] ++
  [TOKEN_E; TOKEN_F; TOKEN_ES; TOKEN_FLIP_DIR; TOKEN_E; TOKEN_F; TOKEN_EE; TOKEN_FF; TOKEN_FLIP_DIR; TOKEN_S; TOKEN_SE; TOKEN_END].

(** src/protocol/patterns.c:810-833 *)
Definition noise_pattern_XXhfs : list Z :=
  FLAGS [FLAG_LOCAL_STATIC; FLAG_LOCAL_EPHEMERAL; FLAG_LOCAL_HYBRID; FLAG_REMOTE_STATIC; FLAG_REMOTE_EPHEMERAL; FLAG_REMOTE_HYBRID] ++
  [TOKEN_E; TOKEN_F; TOKEN_FLIP_DIR; TOKEN_E; TOKEN_F; TOKEN_EE; TOKEN_FF; TOKEN_S; TOKEN_ES; TOKEN_FLIP_DIR; TOKEN_S; TOKEN_SE; TOKEN_END].

(** src/protocol/patterns.c:846-865 *)
Definition noise_pattern_KNhfs : list Z :=
  FLAGS [FLAG_LOCAL_STATIC; FLAG_LOCAL_EPHEMERAL; FLAG_LOCAL_HYBRID; FLAG_LOCAL_REQUIRED; FLAG_REMOTE_EPHEMERAL; FLAG_REMOTE_HYBRID] ++
  [TOKEN_E; TOKEN_F; TOKEN_FLIP_DIR; TOKEN_E; TOKEN_F; TOKEN_EE; TOKEN_FF; TOKEN_SE; TOKEN_END].

(** src/protocol/patterns.c:879-902 *)
Definition noise_pattern_KKhfs : list Z :=
  FLAGS [FLAG_LOCAL_STATIC; FLAG_LOCAL_EPHEMERAL; FLAG_LOCAL_REQUIRED; FLAG_LOCAL_HYBRID; FLAG_REMOTE_STATIC; FLAG_REMOTE_EPHEMERAL; FLAG_REMOTE_REQUIRED; FLAG_REMOTE_HYBRID] ++
  [TOKEN_E; TOKEN_F; TOKEN_ES; TOKEN_SS; TOKEN_FLIP_DIR; TOKEN_E; TOKEN_F; TOKEN_EE; TOKEN_FF; TOKEN_SE; TOKEN_END].

(** src/protocol/patterns.c:915-937 *)
Definition noise_pattern_KXhfs : list Z :=
  FLAGS [FLAG_LOCAL_STATIC; FLAG_LOCAL_EPHEMERAL; FLAG_LOCAL_REQUIRED; FLAG_LOCAL_HYBRID; FLAG_REMOTE_STATIC; FLAG_REMOTE_EPHEMERAL; FLAG_REMOTE_HYBRID] ++
  [TOKEN_E; TOKEN_F; TOKEN_FLIP_DIR; TOKEN_E; TOKEN_F; TOKEN_EE; TOKEN_FF; TOKEN_SE; TOKEN_S; TOKEN_ES; TOKEN_END].

(** src/protocol/patterns.c:948-967 *)
Definition noise_pattern_INhfs : list Z :=
  FLAGS [FLAG_LOCAL_STATIC; FLAG_LOCAL_EPHEMERAL; FLAG_LOCAL_HYBRID; FLAG_REMOTE_EPHEMERAL; FLAG_REMOTE_HYBRID] ++
  [TOKEN_E; TOKEN_F; TOKEN_S; TOKEN_FLIP_DIR; TOKEN_E; TOKEN_F; TOKEN_EE; TOKEN_FF; TOKEN_SE; TOKEN_END].

(** src/protocol/patterns.c:980-1003 *)
Definition noise_pattern_IKhfs : list Z :=
  FLAGS [FLAG_LOCAL_STATIC; FLAG_LOCAL_EPHEMERAL; FLAG_LOCAL_HYBRID; FLAG_REMOTE_STATIC; FLAG_REMOTE_EPHEMERAL; FLAG_REMOTE_REQUIRED; FLAG_REMOTE_HYBRID] ++
  [TOKEN_E; TOKEN_F; TOKEN_ES; TOKEN_S; TOKEN_SS; TOKEN_FLIP_DIR; TOKEN_E; TOKEN_F; TOKEN_EE; TOKEN_FF; TOKEN_SE; TOKEN_END].

(** src/protocol/patterns.c:1014-1036 *)
Definition noise_pattern_IXhfs : list Z :=
  FLAGS [FLAG_LOCAL_STATIC; FLAG_LOCAL_EPHEMERAL; FLAG_LOCAL_HYBRID; FLAG_REMOTE_STATIC; FLAG_REMOTE_EPHEMERAL; FLAG_REMOTE_HYBRID] ++
  [TOKEN_E; TOKEN_F; TOKEN_S; TOKEN_FLIP_DIR; TOKEN_E; TOKEN_F; TOKEN_EE; TOKEN_FF; TOKEN_SE; TOKEN_S; TOKEN_ES; TOKEN_END].

(** src/protocol/patterns.c:1049-1071 *)
Definition noise_pattern_XXfallback_hfs : list Z :=
  FLAGS [FLAG_LOCAL_STATIC; FLAG_LOCAL_EPHEMERAL; FLAG_LOCAL_HYBRID; FLAG_REMOTE_STATIC; FLAG_REMOTE_EPHEMERAL; FLAG_REMOTE_EPHEM_REQ; FLAG_REMOTE_HYBRID; FLAG_REMOTE_HYBRID_REQ] ++
  [TOKEN_E; TOKEN_F; TOKEN_EE; TOKEN_FF; TOKEN_S; TOKEN_SE; TOKEN_FLIP_DIR; TOKEN_S; TOKEN_ES; TOKEN_END].

(** src/protocol/patterns.c:1082-1101 *)
Definition noise_pattern_NXnoidh_hfs : list Z :=
  FLAGS [FLAG_LOCAL_EPHEMERAL; FLAG_LOCAL_HYBRID; FLAG_REMOTE_STATIC; FLAG_REMOTE_EPHEMERAL; FLAG_REMOTE_HYBRID] ++
  [TOKEN_E; TOKEN_F; TOKEN_FLIP_DIR; TOKEN_E; TOKEN_F; TOKEN_S; TOKEN_EE; TOKEN_FF; TOKEN_ES; TOKEN_END].

(** src/protocol/patterns.c:1113-1136 *)
Definition noise_pattern_XXnoidh_hfs : list Z :=
  FLAGS [FLAG_LOCAL_STATIC; FLAG_LOCAL_EPHEMERAL; FLAG_LOCAL_HYBRID; FLAG_REMOTE_STATIC; FLAG_REMOTE_EPHEMERAL; FLAG_REMOTE_HYBRID] ++
  [TOKEN_E; TOKEN_F; TOKEN_FLIP_DIR; TOKEN_E; TOKEN_F; TOKEN_S; TOKEN_EE; TOKEN_FF; TOKEN_ES; TOKEN_FLIP_DIR; TOKEN_S; TOKEN_SE; TOKEN_END].

(** src/protocol/patterns.c:1149-1171 *)
Definition noise_pattern_KXnoidh_hfs : list Z :=
  FLAGS [FLAG_LOCAL_STATIC; FLAG_LOCAL_EPHEMERAL; FLAG_LOCAL_REQUIRED; FLAG_LOCAL_HYBRID; FLAG_REMOTE_STATIC; FLAG_REMOTE_EPHEMERAL; FLAG_REMOTE_HYBRID] ++
  [TOKEN_E; TOKEN_F; TOKEN_FLIP_DIR; TOKEN_E; TOKEN_F; TOKEN_S; TOKEN_EE; TOKEN_FF; TOKEN_SE; TOKEN_ES; TOKEN_END].

(** src/protocol/patterns.c:1184-1207 *)
Definition noise_pattern_IKnoidh_hfs : list Z :=
  FLAGS [FLAG_LOCAL_STATIC; FLAG_LOCAL_EPHEMERAL; FLAG_LOCAL_HYBRID; FLAG_REMOTE_STATIC; FLAG_REMOTE_EPHEMERAL; FLAG_REMOTE_REQUIRED; FLAG_REMOTE_HYBRID] ++
  [TOKEN_E; TOKEN_F; TOKEN_S; TOKEN_ES; TOKEN_SS; TOKEN_FLIP_DIR; TOKEN_E; TOKEN_F; TOKEN_EE; TOKEN_FF; TOKEN_SE; TOKEN_END].

(** src/protocol/patterns.c:1218-1240 *)
Definition noise_pattern_IXnoidh_hfs : list Z :=
  FLAGS [FLAG_LOCAL_STATIC; FLAG_LOCAL_EPHEMERAL; FLAG_LOCAL_HYBRID; FLAG_REMOTE_STATIC; FLAG_REMOTE_EPHEMERAL; FLAG_REMOTE_HYBRID] ++
  [TOKEN_E; TOKEN_F; TOKEN_S; TOKEN_FLIP_DIR; TOKEN_E; TOKEN_F; TOKEN_S; TOKEN_EE; TOKEN_FF; TOKEN_SE; TOKEN_ES; TOKEN_END].

(** include/noise/protocol/constants.h:57-99 and src/protocol/patterns.c:1253-1298 *)
Definition noise_pattern_lookup (id : Z) : option (list Z) :=
  if id =? NOISE_ID 80 1 then Some noise_pattern_N else
  if id =? NOISE_ID 80 3 then Some noise_pattern_K else
  if id =? NOISE_ID 80 2 then Some noise_pattern_X else
  if id =? NOISE_ID 80 4 then Some noise_pattern_NN else
  if id =? NOISE_ID 80 5 then Some noise_pattern_NK else
  if id =? NOISE_ID 80 6 then Some noise_pattern_NX else
  if id =? NOISE_ID 80 7 then Some noise_pattern_XN else
  if id =? NOISE_ID 80 8 then Some noise_pattern_XK else
  if id =? NOISE_ID 80 9 then Some noise_pattern_XX else
  if id =? NOISE_ID 80 10 then Some noise_pattern_KN else
  if id =? NOISE_ID 80 11 then Some noise_pattern_KK else
  if id =? NOISE_ID 80 12 then Some noise_pattern_KX else
  if id =? NOISE_ID 80 13 then Some noise_pattern_IN else
  if id =? NOISE_ID 80 14 then Some noise_pattern_IK else
  if id =? NOISE_ID 80 15 then Some noise_pattern_IX else
  if id =? NOISE_ID 80 16 then Some noise_pattern_XXfallback else
  if id =? NOISE_ID 80 32 then Some noise_pattern_Xnoidh else
  if id =? NOISE_ID 80 33 then Some noise_pattern_NXnoidh else
  if id =? NOISE_ID 80 34 then Some noise_pattern_XXnoidh else
  if id =? NOISE_ID 80 35 then Some noise_pattern_KXnoidh else
  if id =? NOISE_ID 80 36 then Some noise_pattern_IKnoidh else
  if id =? NOISE_ID 80 37 then Some noise_pattern_IXnoidh else
  if id =? NOISE_ID 80 48 then Some noise_pattern_NNhfs else
  if id =? NOISE_ID 80 49 then Some noise_pattern_NKhfs else
  if id =? NOISE_ID 80 50 then Some noise_pattern_NXhfs else
  if id =? NOISE_ID 80 51 then Some noise_pattern_XNhfs else
  if id =? NOISE_ID 80 52 then Some noise_pattern_XKhfs else
  if id =? NOISE_ID 80 53 then Some noise_pattern_XXhfs else
  if id =? NOISE_ID 80 54 then Some noise_pattern_KNhfs else
  if id =? NOISE_ID 80 55 then Some noise_pattern_KKhfs else
  if id =? NOISE_ID 80 56 then Some noise_pattern_KXhfs else
  if id =? NOISE_ID 80 57 then Some noise_pattern_INhfs else
  if id =? NOISE_ID 80 58 then Some noise_pattern_IKhfs else
  if id =? NOISE_ID 80 59 then Some noise_pattern_IXhfs else
  if id =? NOISE_ID 80 60 then Some noise_pattern_XXfallback_hfs else
  if id =? NOISE_ID 80 80 then Some noise_pattern_NXnoidh_hfs else
  if id =? NOISE_ID 80 81 then Some noise_pattern_XXnoidh_hfs else
  if id =? NOISE_ID 80 82 then Some noise_pattern_KXnoidh_hfs else
  if id =? NOISE_ID 80 83 then Some noise_pattern_IKnoidh_hfs else
  if id =? NOISE_ID 80 84 then Some noise_pattern_IXnoidh_hfs else
  None.

(** src/protocol/patterns.c:1306-1309 *)
Definition reverse_flags (flags : Z) : Z :=
  Z.lor (Z.land (Z.shiftr flags 8) 255) (Z.land (Z.shiftl flags 8) 65280).

(** Model of src/crypto/chacha/chacha.c.

    The context holds sixteen 32-bit words.  In the vector build it is an array
    of four vectors of four words; they are kept here in the same order, so that
    words 4*i .. 4*i+3 are x->input[i].  Every caller in the library encrypts in
    place (m = c), and that is the case modelled. *)
From Verif Require Import Base MHash MSha2 MBlake2.

(** chacha.c:29-33, applied to the four bytes at offset [4*i] of [m] *)
Definition from_little (m : list Z) (i : nat) : Z := load_le32 (drop (4 * Z.of_nat i) m).
(** chacha.c:35-39 *)
Definition to_little (v : Z) : list Z :=
  [v mod 256; Z.shiftr v 8 mod 256; Z.shiftr v 16 mod 256; Z.shiftr v 24 mod 256].
(** chacha.c:59, on uint32_t *)
Definition left_rotate (x n : Z) : Z := Z.lor (Z.shiftl x n mod 2^32) (Z.shiftr x (32 - n)).

(** chacha.c:62-72, on four uint32_t variables; the new values are returned *)
Definition quarter_round (a b c d : Z) : Z * Z * Z * Z :=
  let a := (a + b) mod 2^32 in
  let d := left_rotate (Z.lxor d a) 16 in
  let c := (c + d) mod 2^32 in
  let b := left_rotate (Z.lxor b c) 12 in
  let a := (a + b) mod 2^32 in
  let d := left_rotate (Z.lxor d a) 8 in
  let c := (c + d) mod 2^32 in
  let b := left_rotate (Z.lxor b c) 7 in
  (a, b, c, d).

(** The builds.  USE_VECTOR_MATH (chacha.h) is chosen for little endian x86;
    the scalar code runs on machines of either byte order. *)
Inductive cc_build : Type := CC_Vector | CC_ScalarLE | CC_ScalarBE.

(** memcpy(x->input, tag, 16), chacha.c:79 and 94: four words in the byte order
    of the machine *)
Definition native_word (b : cc_build) (m : list Z) : Z :=
  match b with CC_ScalarBE => mem_word (rev m) | _ => mem_word m end.
(** chacha.c:76-77: the characters of the two constants *)
Definition tag128 : list Z := [101; 120; 112; 97; 110; 100; 32; 49; 54; 45; 98; 121; 116; 101; 32; 107].
Definition tag256 : list Z := [101; 120; 112; 97; 110; 100; 32; 51; 50; 45; 98; 121; 116; 101; 32; 107].
Definition native_words (b : cc_build) (m : list Z) : list Z :=
  map (fun i => native_word b (sub (4 * Z.of_nat i) 4 m)) (seq 0 4).

(** chacha.c:74-109.  fromLittleVec (45-49) loads the words in the order of the
    machine, which is little endian in that build. *)
Definition key_words (b : cc_build) (k : list Z) (i n : nat) : list Z :=
  match b with
  | CC_Vector => map (fun j => mem_word (sub (4 * Z.of_nat j) 4 k)) (seq i n)
  | _ => map (from_little k) (seq i n)
  end.
Definition chacha_keysetup (b : cc_build) (k : list Z) (kbits : Z) : list Z :=
  if kbits =? 256 then native_words b tag256 ++ key_words b k 0 8 ++ [0; 0; 0; 0]
  else native_words b tag128 ++ key_words b k 0 4 ++ key_words b k 0 4 ++ [0; 0; 0; 0].

(** chacha.c:111-133; both builds give the same words *)
Definition chacha_ivsetup (x : list Z) (iv : list Z) (counter : option (list Z)) : list Z :=
  firstn 12 x ++
  match counter with
  | Some c => [from_little c 0; from_little c 1]
  | None => [0; 0]
  end ++ [from_little iv 0; from_little iv 1].

(** chacha.c:234-246: one turn of the loop of the scalar build; variable out[i]
    is element [i] of the list *)
Definition quarter_at (v : list Z) (ia ib ic id : nat) : list Z :=
  let '(a, b, c, d) := quarter_round (word_at v ia) (word_at v ib) (word_at v ic) (word_at v id) in
  set_word (set_word (set_word (set_word v ia a) ib b) ic c) id d.
Definition scalar_rounds2 (v : list Z) : list Z :=
  let v := quarter_at v 0 4 8 12 in
  let v := quarter_at v 1 5 9 13 in
  let v := quarter_at v 2 6 10 14 in
  let v := quarter_at v 3 7 11 15 in
  let v := quarter_at v 0 5 10 15 in
  let v := quarter_at v 1 6 11 12 in
  let v := quarter_at v 2 7 8 13 in
  quarter_at v 3 4 9 14.

(** chacha.c:62-72 again, on four vectors: the operators work element by element *)
Definition vec_rol (x : list Z) (n : Z) : list Z := map (fun a => left_rotate a n) x.
Definition vec_quarter (a b c d : list Z) : list Z * list Z * list Z * list Z :=
  let a := vec_add a b in
  let d := vec_rol (vec_xor d a) 16 in
  let c := vec_add c d in
  let b := vec_rol (vec_xor b c) 12 in
  let a := vec_add a b in
  let d := vec_rol (vec_xor d a) 8 in
  let c := vec_add c d in
  let b := vec_rol (vec_xor b c) 7 in
  (a, b, c, d).
(** chacha.c:137-139 are shuffle1, shuffle2, shuffle3 of MBlake2; 157-169 *)
Definition vector_rounds2 (v : list Z * list Z * list Z * list Z) :=
  let '(out0, out1, out2, out3) := v in
  let '(out0, out1, out2, out3) := vec_quarter out0 out1 out2 out3 in
  let out1 := shuffle1 out1 in
  let out2 := shuffle2 out2 in
  let out3 := shuffle3 out3 in
  let '(out0, out1, out2, out3) := vec_quarter out0 out1 out2 out3 in
  (out0, shuffle3 out1, shuffle2 out2, shuffle1 out3).

(** chacha.c:227-252 and 150-175: the output block for the input [x].  The
    counter of the for loop takes the ten values 20, 18, .. 2. *)
Definition scalar_core (x : list Z) : list Z :=
  let out := fold_left (fun v _ => scalar_rounds2 v) (seq 0 10) x in
  map (fun i => (word_at out i + word_at x i) mod 2^32) (seq 0 16).
Definition vec_of (x : list Z) (i : nat) : list Z := firstn 4 (skipn (4 * i) x).
Definition vector_core (x : list Z) : list Z :=
  let '(out0, out1, out2, out3) :=
    fold_left (fun v _ => vector_rounds2 v) (seq 0 10) (vec_of x 0, vec_of x 1, vec_of x 2, vec_of x 3) in
  vec_add out0 (vec_of x 0) ++ vec_add out1 (vec_of x 1) ++
  vec_add out2 (vec_of x 2) ++ vec_add out3 (vec_of x 3).
Definition chacha_core (b : cc_build) : list Z -> list Z :=
  match b with CC_Vector => vector_core | _ => scalar_core end.

(** chacha.c:177-179 and 254-256 *)
Definition chacha_increment (x : list Z) : list Z :=
  let c := (word_at x 12 + 1) mod 2^32 in
  let x := set_word x 12 c in
  if c =? 0 then set_word x 13 ((word_at x 13 + 1) mod 2^32) else x.

(** chacha.c:189-196 and 266-297: sixteen words of [m], each replaced by its
    exclusive or with a word of [out] *)
Definition xor_stored (b : cc_build) (out m : list Z) : list Z :=
  concat (map (fun i => to_little (Z.lxor (word_at out i) (word_at (key_words b m 0 16) i))) (seq 0 16)).

(** chacha.c:141-205 and 209-310, with m = c: [data] is the memory from the
    pointer on, [temp] the contents of the local array before the call, which
    the code does not initialise.  The result is the context and the memory.
    The loop ends after at most [bytes]/64 + 1 turns, which bounds [fuel]. *)
Fixpoint chacha_loop (fuel : nat) (b : cc_build) (temp x data : list Z) (bytes : Z) : list Z * list Z :=
  match fuel with
  | O => (x, data)
  | S fuel' =>
    if bytes >? 0 then
      let out := chacha_core b x in
      let x := chacha_increment x in
      if bytes >=? 64 then
        let c := xor_stored b out (take 64 data) in
        let '(x, rest) := chacha_loop fuel' b temp x (drop 64 data) (bytes - 64) in
        (x, c ++ rest)
      else
        let t := splice 0 (take bytes data) temp in
        let t := xor_stored b out t in
        (x, splice 0 (take bytes t) data)
    else (x, data)
  end.
(** [bytes] is a uint32_t *)
Definition chacha_encrypt_bytes (b : cc_build) (temp x data : list Z) (bytes : Z) : list Z * list Z :=
  let bytes := bytes mod 2^32 in
  chacha_loop (S (Z.to_nat (bytes / 64))) b temp x data bytes.

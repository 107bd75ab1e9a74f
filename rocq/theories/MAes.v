(** Model of src/crypto/aes/rijndael-alg-fst.c: key setup and encryption.
    Not modelled: rijndaelKeySetupDec, rijndaelDecrypt and the functions for
    intermediate values, which nothing in the library calls, and the FULL_UNROLL
    and _MSC_VER variants. *)
From Verif Require Import Base MAesTables.

(** rijndael-alg-fst.c:719 *)
Definition getu32 (m : list Z) : Z :=
  Z.lxor (Z.lxor (Z.lxor (Z.shiftl (byte_at m 0) 24) (Z.shiftl (byte_at m 1) 16)) (Z.shiftl (byte_at m 2) 8)) (byte_at m 3).
(** rijndael-alg-fst.c:720 *)
Definition putu32 (st : Z) : list Z :=
  [Z.shiftr st 24 mod 256; Z.shiftr st 16 mod 256; Z.shiftr st 8 mod 256; st mod 256].

(** The words rk[i]; access outside the array is undefined *)
Definition rk_get (rk : list Z) (i : Z) : outcome Z :=
  if (0 <=? i) && (i <? zlen rk) then Ok (nth (Z.to_nat i) rk 0) else UB.
Definition rk_set (rk : list Z) (i : Z) (v : Z) : outcome (list Z) :=
  if (0 <=? i) && (i <? zlen rk) then Ok (splice i [v] rk) else UB.
(** rk[dst] = rk[a] ^ rk[b] *)
Definition rk_xor (rk : list Z) (dst a b : Z) : outcome (list Z) :=
  let! x := rk_get rk a in
  let! y := rk_get rk b in
  rk_set rk dst (Z.lxor x y).

(** A table entry; the index is a byte, so it is inside the table *)
Definition tab (t : list Z) (i : Z) : Z := nth (Z.to_nat i) t 0.

(** rijndael-alg-fst.c:743-747, 762-766 and 780-784 (without rcon): the bytes of temp,
    rotated, through Te4 *)
Definition sub_rot (temp : Z) : Z :=
  Z.lxor (Z.lxor (Z.lxor
    (Z.land (tab Te4 (Z.land (Z.shiftr temp 16) 0xff)) 0xff000000)
    (Z.land (tab Te4 (Z.land (Z.shiftr temp 8) 0xff)) 0x00ff0000))
    (Z.land (tab Te4 (Z.land temp 0xff)) 0x0000ff00))
    (Z.land (tab Te4 (Z.shiftr temp 24)) 0x000000ff).
(** rijndael-alg-fst.c:795-798 *)
Definition sub_only (temp : Z) : Z :=
  Z.lxor (Z.lxor (Z.lxor
    (Z.land (tab Te4 (Z.shiftr temp 24)) 0xff000000)
    (Z.land (tab Te4 (Z.land (Z.shiftr temp 16) 0xff)) 0x00ff0000))
    (Z.land (tab Te4 (Z.land (Z.shiftr temp 8) 0xff)) 0x0000ff00))
    (Z.land (tab Te4 (Z.land temp 0xff)) 0x000000ff).

(** rijndael-alg-fst.c:736-739 and the like: rk[i] = GETU32(cipherKey + 4 i) *)
Definition key_word (key rk : list Z) (i : Z) : outcome (list Z) :=
  let! m := load key (4 * i) 4 in
  rk_set rk i (getu32 m).

(** rijndael-alg-fst.c:741-755; [base] is how far rk has advanced *)
Fixpoint setup128 (fuel : nat) (i base : Z) (rk : list Z) : outcome (list Z * Z) :=
  match fuel with
  | O => UB
  | S fuel' =>
    let! temp := rk_get rk (base + 3) in
    let! r0 := rk_get rk base in
    let! rk := rk_set rk (base + 4) (Z.lxor (Z.lxor r0 (sub_rot temp)) (tab rcon i)) in
    let! rk := rk_xor rk (base + 5) (base + 1) (base + 4) in
    let! rk := rk_xor rk (base + 6) (base + 2) (base + 5) in
    let! rk := rk_xor rk (base + 7) (base + 3) (base + 6) in
    if i + 1 =? 10 then Ok (rk, 10)
    else setup128 fuel' (i + 1) (base + 4) rk
  end.
(** rijndael-alg-fst.c:760-777 *)
Fixpoint setup192 (fuel : nat) (i base : Z) (rk : list Z) : outcome (list Z * Z) :=
  match fuel with
  | O => UB
  | S fuel' =>
    let! temp := rk_get rk (base + 5) in
    let! r0 := rk_get rk base in
    let! rk := rk_set rk (base + 6) (Z.lxor (Z.lxor r0 (sub_rot temp)) (tab rcon i)) in
    let! rk := rk_xor rk (base + 7) (base + 1) (base + 6) in
    let! rk := rk_xor rk (base + 8) (base + 2) (base + 7) in
    let! rk := rk_xor rk (base + 9) (base + 3) (base + 8) in
    if i + 1 =? 8 then Ok (rk, 12)
    else
      let! rk := rk_xor rk (base + 10) (base + 4) (base + 9) in
      let! rk := rk_xor rk (base + 11) (base + 5) (base + 10) in
      setup192 fuel' (i + 1) (base + 6) rk
  end.
(** rijndael-alg-fst.c:782-805 *)
Fixpoint setup256 (fuel : nat) (i base : Z) (rk : list Z) : outcome (list Z * Z) :=
  match fuel with
  | O => UB
  | S fuel' =>
    let! temp := rk_get rk (base + 7) in
    let! r0 := rk_get rk base in
    let! rk := rk_set rk (base + 8) (Z.lxor (Z.lxor r0 (sub_rot temp)) (tab rcon i)) in
    let! rk := rk_xor rk (base + 9) (base + 1) (base + 8) in
    let! rk := rk_xor rk (base + 10) (base + 2) (base + 9) in
    let! rk := rk_xor rk (base + 11) (base + 3) (base + 10) in
    if i + 1 =? 7 then Ok (rk, 14)
    else
      let! temp := rk_get rk (base + 11) in
      let! r4 := rk_get rk (base + 4) in
      let! rk := rk_set rk (base + 12) (Z.lxor r4 (sub_only temp)) in
      let! rk := rk_xor rk (base + 13) (base + 5) (base + 12) in
      let! rk := rk_xor rk (base + 14) (base + 6) (base + 13) in
      let! rk := rk_xor rk (base + 15) (base + 7) (base + 14) in
      setup256 fuel' (i + 1) (base + 8) rk
  end.
(** rijndael-alg-fst.c:728-807; the array afterwards and the returned number of rounds *)
Definition rijndael_key_setup_enc (rk key : list Z) (key_bits : Z) : outcome (list Z * Z) :=
  let! rk := key_word key rk 0 in
  let! rk := key_word key rk 1 in
  let! rk := key_word key rk 2 in
  let! rk := key_word key rk 3 in
  if key_bits =? 128 then setup128 10 0 0 rk
  else
    let! rk := key_word key rk 4 in
    let! rk := key_word key rk 5 in
    if key_bits =? 192 then setup192 8 0 0 rk
    else
      let! rk := key_word key rk 6 in
      let! rk := key_word key rk 7 in
      if key_bits =? 256 then setup256 7 0 0 rk
      else Ok (rk, 0).

Definition quad : Type := Z * Z * Z * Z.
(** rijndael-alg-fst.c:945-968 and 975-998: one round with the keys at rk + off *)
Definition enc_column (a b c d k : Z) : Z :=
  Z.lxor (Z.lxor (Z.lxor (Z.lxor
    (tab Te0 (Z.shiftr a 24))
    (tab Te1 (Z.land (Z.shiftr b 16) 0xff)))
    (tab Te2 (Z.land (Z.shiftr c 8) 0xff)))
    (tab Te3 (Z.land d 0xff))) k.
Definition enc_round (rk : list Z) (off : Z) (s : quad) : outcome quad :=
  let '(s0, s1, s2, s3) := s in
  let! k0 := rk_get rk off in
  let! k1 := rk_get rk (off + 1) in
  let! k2 := rk_get rk (off + 2) in
  let! k3 := rk_get rk (off + 3) in
  Ok (enc_column s0 s1 s2 s3 k0, enc_column s1 s2 s3 s0 k1, enc_column s2 s3 s0 s1 k2, enc_column s3 s0 s1 s2 k3).
(** rijndael-alg-fst.c:944-999; gives t0 to t3 and where rk has advanced to *)
Fixpoint enc_loop (fuel : nat) (r : Z) (rk : list Z) (base : Z) (s : quad) : outcome (quad * Z) :=
  match fuel with
  | O => UB
  | S fuel' =>
    let! t := enc_round rk (base + 4) s in
    let base := base + 8 in
    let r := r - 1 in
    if r =? 0 then Ok (t, base)
    else
      let! s := enc_round rk base t in
      enc_loop fuel' r rk base s
  end.
(** rijndael-alg-fst.c:1005-1032 *)
Definition last_column (a b c d k : Z) : Z :=
  Z.lxor (Z.lxor (Z.lxor (Z.lxor
    (Z.land (tab Te4 (Z.shiftr a 24)) 0xff000000)
    (Z.land (tab Te4 (Z.land (Z.shiftr b 16) 0xff)) 0x00ff0000))
    (Z.land (tab Te4 (Z.land (Z.shiftr c 8) 0xff)) 0x0000ff00))
    (Z.land (tab Te4 (Z.land d 0xff)) 0x000000ff)) k.
(** rijndael-alg-fst.c:854-1033; the 16 bytes stored at ct *)
Definition rijndael_encrypt (rk : list Z) (nr : Z) (pt : list Z) : outcome (list Z) :=
  let! p0 := load pt 0 4 in
  let! p1 := load pt 4 4 in
  let! p2 := load pt 8 4 in
  let! p3 := load pt 12 4 in
  let! k0 := rk_get rk 0 in
  let! k1 := rk_get rk 1 in
  let! k2 := rk_get rk 2 in
  let! k3 := rk_get rk 3 in
  let s := (Z.lxor (getu32 p0) k0, Z.lxor (getu32 p1) k1, Z.lxor (getu32 p2) k2, Z.lxor (getu32 p3) k3) in
  let! tb := enc_loop (Z.to_nat (Z.shiftr nr 1)) (Z.shiftr nr 1) rk 0 s in
  let '((t0, t1, t2, t3), base) := tb in
  let! k0 := rk_get rk base in
  let! k1 := rk_get rk (base + 1) in
  let! k2 := rk_get rk (base + 2) in
  let! k3 := rk_get rk (base + 3) in
  Ok (putu32 (last_column t0 t1 t2 t3 k0) ++ putu32 (last_column t1 t2 t3 t0 k1) ++
      putu32 (last_column t2 t3 t0 t1 k2) ++ putu32 (last_column t3 t0 t1 t2 k3)).

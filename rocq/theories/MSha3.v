(** Model of src/crypto/newhope/fips202.c: the permutation Keccak-f[1600], SHA3-256
    and the two halves of SHAKE128. *)
From Verif Require Import Base.

(** fips202.c:13, of a uint64_t *)
Definition ROL (a : Z) (offset : nat) : Z :=
  Z.lxor (Z.shiftl a (Z.of_nat offset) mod 2^64) (Z.shiftr a (64 - Z.of_nat offset)).
(** fips202.c:15-23, of the eight bytes at offset [off] *)
Definition load64 (x : list Z) (off : Z) : Z :=
  fold_left (fun r i => Z.lor r (Z.shiftl (byte_at x (off + Z.of_nat i)) (8 * Z.of_nat i))) (seq 0 8) 0.
(** fips202.c:25-33 *)
Definition store64 (u : Z) : list Z := map (fun i => Z.shiftr u (8 * Z.of_nat i) mod 2^8) (seq 0 8).
(** fips202.c:35-61 *)
Definition KeccakF_RoundConstants : list Z :=
  [0x0000000000000001; 0x0000000000008082; 0x800000000000808a; 0x8000000080008000;
   0x000000000000808b; 0x0000000080000001; 0x8000000080008081; 0x8000000000008009;
   0x000000000000008a; 0x0000000000000088; 0x0000000080008009; 0x000000008000000a;
   0x000000008000808b; 0x800000000000008b; 0x8000000000008089; 0x8000000000008003;
   0x8000000000008002; 0x8000000000000080; 0x000000000000800a; 0x800000008000000a;
   0x8000000080008081; 0x8000000000008080; 0x0000000080000001; 0x8000000080008008].

(** fips202.c:110-202: an even round, from the variables A to the variables E.  The
    complement is cut to 64 bits by the conjunction that follows. *)
Definition round_A_E (rc : Z) (s : list Z) : list Z :=
  let Aba := nth 0 s 0 in  let Abe := nth 1 s 0 in  let Abi := nth 2 s 0 in  let Abo := nth 3 s 0 in  let Abu := nth 4 s 0 in
  let Aga := nth 5 s 0 in  let Age := nth 6 s 0 in  let Agi := nth 7 s 0 in  let Ago := nth 8 s 0 in  let Agu := nth 9 s 0 in
  let Aka := nth 10 s 0 in  let Ake := nth 11 s 0 in  let Aki := nth 12 s 0 in  let Ako := nth 13 s 0 in  let Aku := nth 14 s 0 in
  let Ama := nth 15 s 0 in  let Ame := nth 16 s 0 in  let Ami := nth 17 s 0 in  let Amo := nth 18 s 0 in  let Amu := nth 19 s 0 in
  let Asa := nth 20 s 0 in  let Ase := nth 21 s 0 in  let Asi := nth 22 s 0 in  let Aso := nth 23 s 0 in  let Asu := nth 24 s 0 in
  let BCa := Z.lxor (Z.lxor (Z.lxor (Z.lxor Aba Aga) Aka) Ama) Asa in
  let BCe := Z.lxor (Z.lxor (Z.lxor (Z.lxor Abe Age) Ake) Ame) Ase in
  let BCi := Z.lxor (Z.lxor (Z.lxor (Z.lxor Abi Agi) Aki) Ami) Asi in
  let BCo := Z.lxor (Z.lxor (Z.lxor (Z.lxor Abo Ago) Ako) Amo) Aso in
  let BCu := Z.lxor (Z.lxor (Z.lxor (Z.lxor Abu Agu) Aku) Amu) Asu in
  let Da := Z.lxor BCu (ROL BCe 1) in
  let De := Z.lxor BCa (ROL BCi 1) in
  let Di := Z.lxor BCe (ROL BCo 1) in
  let Do := Z.lxor BCi (ROL BCu 1) in
  let Du := Z.lxor BCo (ROL BCa 1) in
  let Aba := Z.lxor Aba Da in
  let BCa := Aba in
  let Age := Z.lxor Age De in
  let BCe := ROL Age 44 in
  let Aki := Z.lxor Aki Di in
  let BCi := ROL Aki 43 in
  let Amo := Z.lxor Amo Do in
  let BCo := ROL Amo 21 in
  let Asu := Z.lxor Asu Du in
  let BCu := ROL Asu 14 in
  let Eba := Z.lxor BCa (Z.land (Z.lnot BCe) BCi) in
  let Eba := Z.lxor Eba rc in
  let Ebe := Z.lxor BCe (Z.land (Z.lnot BCi) BCo) in
  let Ebi := Z.lxor BCi (Z.land (Z.lnot BCo) BCu) in
  let Ebo := Z.lxor BCo (Z.land (Z.lnot BCu) BCa) in
  let Ebu := Z.lxor BCu (Z.land (Z.lnot BCa) BCe) in
  let Abo := Z.lxor Abo Do in
  let BCa := ROL Abo 28 in
  let Agu := Z.lxor Agu Du in
  let BCe := ROL Agu 20 in
  let Aka := Z.lxor Aka Da in
  let BCi := ROL Aka 3 in
  let Ame := Z.lxor Ame De in
  let BCo := ROL Ame 45 in
  let Asi := Z.lxor Asi Di in
  let BCu := ROL Asi 61 in
  let Ega := Z.lxor BCa (Z.land (Z.lnot BCe) BCi) in
  let Ege := Z.lxor BCe (Z.land (Z.lnot BCi) BCo) in
  let Egi := Z.lxor BCi (Z.land (Z.lnot BCo) BCu) in
  let Ego := Z.lxor BCo (Z.land (Z.lnot BCu) BCa) in
  let Egu := Z.lxor BCu (Z.land (Z.lnot BCa) BCe) in
  let Abe := Z.lxor Abe De in
  let BCa := ROL Abe 1 in
  let Agi := Z.lxor Agi Di in
  let BCe := ROL Agi 6 in
  let Ako := Z.lxor Ako Do in
  let BCi := ROL Ako 25 in
  let Amu := Z.lxor Amu Du in
  let BCo := ROL Amu 8 in
  let Asa := Z.lxor Asa Da in
  let BCu := ROL Asa 18 in
  let Eka := Z.lxor BCa (Z.land (Z.lnot BCe) BCi) in
  let Eke := Z.lxor BCe (Z.land (Z.lnot BCi) BCo) in
  let Eki := Z.lxor BCi (Z.land (Z.lnot BCo) BCu) in
  let Eko := Z.lxor BCo (Z.land (Z.lnot BCu) BCa) in
  let Eku := Z.lxor BCu (Z.land (Z.lnot BCa) BCe) in
  let Abu := Z.lxor Abu Du in
  let BCa := ROL Abu 27 in
  let Aga := Z.lxor Aga Da in
  let BCe := ROL Aga 36 in
  let Ake := Z.lxor Ake De in
  let BCi := ROL Ake 10 in
  let Ami := Z.lxor Ami Di in
  let BCo := ROL Ami 15 in
  let Aso := Z.lxor Aso Do in
  let BCu := ROL Aso 56 in
  let Ema := Z.lxor BCa (Z.land (Z.lnot BCe) BCi) in
  let Eme := Z.lxor BCe (Z.land (Z.lnot BCi) BCo) in
  let Emi := Z.lxor BCi (Z.land (Z.lnot BCo) BCu) in
  let Emo := Z.lxor BCo (Z.land (Z.lnot BCu) BCa) in
  let Emu := Z.lxor BCu (Z.land (Z.lnot BCa) BCe) in
  let Abi := Z.lxor Abi Di in
  let BCa := ROL Abi 62 in
  let Ago := Z.lxor Ago Do in
  let BCe := ROL Ago 55 in
  let Aku := Z.lxor Aku Du in
  let BCi := ROL Aku 39 in
  let Ama := Z.lxor Ama Da in
  let BCo := ROL Ama 41 in
  let Ase := Z.lxor Ase De in
  let BCu := ROL Ase 2 in
  let Esa := Z.lxor BCa (Z.land (Z.lnot BCe) BCi) in
  let Ese := Z.lxor BCe (Z.land (Z.lnot BCi) BCo) in
  let Esi := Z.lxor BCi (Z.land (Z.lnot BCo) BCu) in
  let Eso := Z.lxor BCo (Z.land (Z.lnot BCu) BCa) in
  let Esu := Z.lxor BCu (Z.land (Z.lnot BCa) BCe) in
  [Eba; Ebe; Ebi; Ebo; Ebu; Ega; Ege; Egi; Ego; Egu; Eka; Eke; Eki; Eko; Eku; Ema; Eme; Emi; Emo; Emu; Esa; Ese; Esi; Eso; Esu].
(** fips202.c:205-297: an odd round, back to the variables A *)
Definition round_E_A (rc : Z) (s : list Z) : list Z :=
  let Eba := nth 0 s 0 in  let Ebe := nth 1 s 0 in  let Ebi := nth 2 s 0 in  let Ebo := nth 3 s 0 in  let Ebu := nth 4 s 0 in
  let Ega := nth 5 s 0 in  let Ege := nth 6 s 0 in  let Egi := nth 7 s 0 in  let Ego := nth 8 s 0 in  let Egu := nth 9 s 0 in
  let Eka := nth 10 s 0 in  let Eke := nth 11 s 0 in  let Eki := nth 12 s 0 in  let Eko := nth 13 s 0 in  let Eku := nth 14 s 0 in
  let Ema := nth 15 s 0 in  let Eme := nth 16 s 0 in  let Emi := nth 17 s 0 in  let Emo := nth 18 s 0 in  let Emu := nth 19 s 0 in
  let Esa := nth 20 s 0 in  let Ese := nth 21 s 0 in  let Esi := nth 22 s 0 in  let Eso := nth 23 s 0 in  let Esu := nth 24 s 0 in
  let BCa := Z.lxor (Z.lxor (Z.lxor (Z.lxor Eba Ega) Eka) Ema) Esa in
  let BCe := Z.lxor (Z.lxor (Z.lxor (Z.lxor Ebe Ege) Eke) Eme) Ese in
  let BCi := Z.lxor (Z.lxor (Z.lxor (Z.lxor Ebi Egi) Eki) Emi) Esi in
  let BCo := Z.lxor (Z.lxor (Z.lxor (Z.lxor Ebo Ego) Eko) Emo) Eso in
  let BCu := Z.lxor (Z.lxor (Z.lxor (Z.lxor Ebu Egu) Eku) Emu) Esu in
  let Da := Z.lxor BCu (ROL BCe 1) in
  let De := Z.lxor BCa (ROL BCi 1) in
  let Di := Z.lxor BCe (ROL BCo 1) in
  let Do := Z.lxor BCi (ROL BCu 1) in
  let Du := Z.lxor BCo (ROL BCa 1) in
  let Eba := Z.lxor Eba Da in
  let BCa := Eba in
  let Ege := Z.lxor Ege De in
  let BCe := ROL Ege 44 in
  let Eki := Z.lxor Eki Di in
  let BCi := ROL Eki 43 in
  let Emo := Z.lxor Emo Do in
  let BCo := ROL Emo 21 in
  let Esu := Z.lxor Esu Du in
  let BCu := ROL Esu 14 in
  let Aba := Z.lxor BCa (Z.land (Z.lnot BCe) BCi) in
  let Aba := Z.lxor Aba rc in
  let Abe := Z.lxor BCe (Z.land (Z.lnot BCi) BCo) in
  let Abi := Z.lxor BCi (Z.land (Z.lnot BCo) BCu) in
  let Abo := Z.lxor BCo (Z.land (Z.lnot BCu) BCa) in
  let Abu := Z.lxor BCu (Z.land (Z.lnot BCa) BCe) in
  let Ebo := Z.lxor Ebo Do in
  let BCa := ROL Ebo 28 in
  let Egu := Z.lxor Egu Du in
  let BCe := ROL Egu 20 in
  let Eka := Z.lxor Eka Da in
  let BCi := ROL Eka 3 in
  let Eme := Z.lxor Eme De in
  let BCo := ROL Eme 45 in
  let Esi := Z.lxor Esi Di in
  let BCu := ROL Esi 61 in
  let Aga := Z.lxor BCa (Z.land (Z.lnot BCe) BCi) in
  let Age := Z.lxor BCe (Z.land (Z.lnot BCi) BCo) in
  let Agi := Z.lxor BCi (Z.land (Z.lnot BCo) BCu) in
  let Ago := Z.lxor BCo (Z.land (Z.lnot BCu) BCa) in
  let Agu := Z.lxor BCu (Z.land (Z.lnot BCa) BCe) in
  let Ebe := Z.lxor Ebe De in
  let BCa := ROL Ebe 1 in
  let Egi := Z.lxor Egi Di in
  let BCe := ROL Egi 6 in
  let Eko := Z.lxor Eko Do in
  let BCi := ROL Eko 25 in
  let Emu := Z.lxor Emu Du in
  let BCo := ROL Emu 8 in
  let Esa := Z.lxor Esa Da in
  let BCu := ROL Esa 18 in
  let Aka := Z.lxor BCa (Z.land (Z.lnot BCe) BCi) in
  let Ake := Z.lxor BCe (Z.land (Z.lnot BCi) BCo) in
  let Aki := Z.lxor BCi (Z.land (Z.lnot BCo) BCu) in
  let Ako := Z.lxor BCo (Z.land (Z.lnot BCu) BCa) in
  let Aku := Z.lxor BCu (Z.land (Z.lnot BCa) BCe) in
  let Ebu := Z.lxor Ebu Du in
  let BCa := ROL Ebu 27 in
  let Ega := Z.lxor Ega Da in
  let BCe := ROL Ega 36 in
  let Eke := Z.lxor Eke De in
  let BCi := ROL Eke 10 in
  let Emi := Z.lxor Emi Di in
  let BCo := ROL Emi 15 in
  let Eso := Z.lxor Eso Do in
  let BCu := ROL Eso 56 in
  let Ama := Z.lxor BCa (Z.land (Z.lnot BCe) BCi) in
  let Ame := Z.lxor BCe (Z.land (Z.lnot BCi) BCo) in
  let Ami := Z.lxor BCi (Z.land (Z.lnot BCo) BCu) in
  let Amo := Z.lxor BCo (Z.land (Z.lnot BCu) BCa) in
  let Amu := Z.lxor BCu (Z.land (Z.lnot BCa) BCe) in
  let Ebi := Z.lxor Ebi Di in
  let BCa := ROL Ebi 62 in
  let Ego := Z.lxor Ego Do in
  let BCe := ROL Ego 55 in
  let Eku := Z.lxor Eku Du in
  let BCi := ROL Eku 39 in
  let Ema := Z.lxor Ema Da in
  let BCo := ROL Ema 41 in
  let Ese := Z.lxor Ese De in
  let BCu := ROL Ese 2 in
  let Asa := Z.lxor BCa (Z.land (Z.lnot BCe) BCi) in
  let Ase := Z.lxor BCe (Z.land (Z.lnot BCi) BCo) in
  let Asi := Z.lxor BCi (Z.land (Z.lnot BCo) BCu) in
  let Aso := Z.lxor BCo (Z.land (Z.lnot BCu) BCa) in
  let Asu := Z.lxor BCu (Z.land (Z.lnot BCa) BCe) in
  [Aba; Abe; Abi; Abo; Abu; Aga; Age; Agi; Ago; Agu; Aka; Ake; Aki; Ako; Aku; Ama; Ame; Ami; Amo; Amu; Asa; Ase; Asi; Aso; Asu].
(** fips202.c:107-297: the loop; [rcs] has the constants of the rounds to come *)
Fixpoint keccak_rounds (rcs : list Z) (s : list Z) : list Z :=
  match rcs with
  | rc :: rc' :: rcs' => keccak_rounds rcs' (round_E_A rc' (round_A_E rc s))
  | _ => s
  end.
(** fips202.c:63-328 *)
Definition KeccakF1600_StatePermute (s : list Z) : list Z := keccak_rounds KeccakF_RoundConstants s.

(** fips202.c:347-348 and 361-362: s[i] ^= load64(m + 8 i) for the first [k] words *)
Definition xor_words (k : nat) (s m : list Z) : list Z :=
  map (fun i => if (i <? k)%nat then Z.lxor (nth i s 0) (load64 m (8 * Z.of_nat i)) else nth i s 0) (seq 0 25).
(** fips202.c:355-360: the last block; the index of line 359 is below r as mlen < r *)
Definition last_block (r : Z) (m : list Z) (p : Z) : list Z :=
  let t := zeros r in
  let t := splice 0 m t in
  let t := splice (zlen m) [p] t in
  splice (r - 1) [Z.lor (byte_at t (r - 1)) 128] t.
(** fips202.c:345-353: the loop, with [fuel] above the number of its turns *)
Fixpoint absorb_loop (fuel : nat) (r : Z) (s m : list Z) : list Z * list Z :=
  match fuel with
  | O => (s, m)
  | S fuel' =>
    if zlen m >=? r then absorb_loop fuel' r (KeccakF1600_StatePermute (xor_words (Z.to_nat (r / 8)) s m)) (drop r m)
    else (s, m)
  end.
(** fips202.c:334-363 *)
Definition keccak_absorb (r : Z) (m : list Z) (p : Z) : list Z :=
  let '(s, m) := absorb_loop (S (length m)) r (zeros 25) m in
  xor_words (Z.to_nat (r / 8)) s (last_block r m p).
(** fips202.c:366-381; the output and the state after *)
Fixpoint keccak_squeezeblocks (nblocks : nat) (s : list Z) (r : Z) : list Z * list Z :=
  match nblocks with
  | O => ([], s)
  | S n =>
    let s := KeccakF1600_StatePermute s in
    let h := concat (map (fun i => store64 (nth i s 0)) (seq 0 (Z.to_nat (Z.shiftr r 3)))) in
    let '(h', s) := keccak_squeezeblocks n s r in
    (h ++ h', s)
  end.
(** fips202.h:4-5 *)
Definition SHAKE128_RATE : Z := 168.
Definition SHA3_256_RATE : Z := 136.
(** fips202.c:384-387 *)
Definition shake128_absorb (input : list Z) : list Z := keccak_absorb SHAKE128_RATE input 0x1F.
(** fips202.c:390-393 *)
Definition shake128_squeezeblocks (nblocks : nat) (s : list Z) : list Z * list Z :=
  keccak_squeezeblocks nblocks s SHAKE128_RATE.
(** fips202.c:407-417 *)
Definition sha3256 (input : list Z) : list Z :=
  let s := keccak_absorb SHA3_256_RATE input 0x06 in
  take 32 (fst (keccak_squeezeblocks 1 s SHA3_256_RATE)).

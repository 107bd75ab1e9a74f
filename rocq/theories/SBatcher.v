(** Specification for the choice of the coefficients of NewHope's public polynomial. *)
From Verif Require Import Base SNewhope.

(** word [i] of a stream of bytes, the low byte first *)
Definition stream_word (buf : list Z) (i : nat) : Z := byte_at buf (2 * Z.of_nat i) + 256 * byte_at buf (2 * Z.of_nat i + 1).
(** the 1344 words of 16 blocks of SHAKE128 *)
Definition words_of (buf : list Z) : list Z := map (stream_word buf) (seq 0 1344).
(** the words at positions [off], [off + 16], [off + 32], ... that are below 5 q *)
Definition usable (buf : list Z) (off : nat) : list nat :=
  filter (fun k => stream_word buf (off + 16 * k) <? 5 * newhope_q) (seq 0 84).

(** C string literals as byte lists. *)
From Coq Require Import Ascii String.
From Verif Require Import Base.

Fixpoint str (s : string) : list Z :=
  match s with
  | EmptyString => []
  | String a r => Z.of_N (N_of_ascii a) :: str r
  end.

Lemma bytes_str : forall s, bytes (str s).
Proof.
  induction s as [|a r IH]; cbn; constructor; auto. unfold is_byte.
  pose proof (N_ascii_bounded a). lia.
Qed.

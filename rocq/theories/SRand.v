(** Specification of the random number generator: ChaCha20 key streams (RFC
    7539), with changes of key in between. *)
From Verif Require Import Base SSha2 SBlake2 SChaCha.

(** A key, a nonce and the number of key stream blocks used up *)
Record gen : Type := Gen { g_key : list Z; g_nonce : list Z; g_block : Z }.
Inductive act : Type :=
| Emit (len : Z)            (* the next bytes of the key stream are output *)
| Rekey                     (* 40 bytes of key stream become key and nonce *)
| Reseed (fresh : list Z).  (* the same, combined with 40 bytes of system entropy *)

Definition change (g : gen) (data : list Z) : gen :=
  let d := chacha20_encrypt (g_key g) (g_block g) (g_nonce g) data in
  Gen (take 32 d) (zeros 4 ++ drop 32 d) 0.
Definition act_step (g : gen) (a : act) : gen * list Z :=
  match a with
  | Emit len => (Gen (g_key g) (g_nonce g) (g_block g + (len + 63) / 64),
                 chacha20_encrypt (g_key g) (g_block g) (g_nonce g) (zeros len))
  | Rekey => (change g (zeros 40), [])
  | Reseed fresh => (change g fresh, [])
  end.
Fixpoint act_run (g : gen) (acts : list act) : gen * list Z :=
  match acts with
  | [] => (g, [])
  | a :: acts' =>
    let '(g, out) := act_step g a in
    let '(g, out') := act_run g acts' in (g, out ++ out')
  end.
(** The blocks of output under the current key, and the bytes of output since
    the last reading of system entropy *)
Definition blocks_since (acts : list act) : Z :=
  fold_left (fun n a => match a with Emit len => n + (len + 63) / 64 | _ => 0 end) acts 0.
Definition bytes_since (acts : list act) : Z :=
  fold_left (fun n a => match a with Emit len => n + len | Rekey => n | Reseed _ => 0 end) acts 0.
Definition on_schedule (acts : list act) : Prop :=
  forall pre post, acts = pre ++ post -> blocks_since pre <= 17 /\ bytes_since pre <= 1600064.
(** The system entropy used *)
Fixpoint fresh_data (acts : list act) : list (list Z) :=
  match acts with
  | [] => []
  | Reseed f :: acts' => f :: fresh_data acts'
  | _ :: acts' => fresh_data acts'
  end.

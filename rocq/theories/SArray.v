(** Specification of dynamic arrays: what an array holds, and what sequences of
    insertions do. *)
From Verif Require Import Base MProto MArray.

(** The array holds exactly the elements [es], each of [size] bytes, one after
    the other, within storage for *max elements. *)
Definition holds (size : Z) (a : array) (es : list (list Z)) : Prop :=
  ar_count a = zlen es /\ Forall (fun e => zlen e = size) es /\ zlen es <= ar_max a /\ ar_max a * size < 2^63 /\
  match ar_data a with
  | None => ar_max a = 0
  | Some m => zlen m = ar_max a * size /\ take (zlen es * size) m = concat es
  end.
Definition empty_array : array := Array None 0 0.

(** One element more, at an index or at the end *)
Definition inserted {A} (index : Z) (e : A) (es : list A) : list A :=
  if index <? zlen es then take index es ++ e :: drop index es else es ++ [e].

(** A call with its element and whether memory can be allocated during the call *)
Inductive array_op : Type :=
| Add (alloc : bool) (e : list Z)
| Insert (alloc : bool) (index : Z) (e : list Z).
Definition op_alloc (o : array_op) : bool := match o with Add a _ | Insert a _ _ => a end.
Definition op_elem (o : array_op) : list Z := match o with Add _ e | Insert _ _ e => e end.
Definition op_fits (size : Z) (o : array_op) : Prop :=
  zlen (op_elem o) = size /\ match o with Insert _ i _ => 0 <= i < 2^64 | Add _ _ => True end.
Definition array_call (size : Z) (a : array) (o : array_op) : outcome (err * array * cptr) :=
  match o with
  | Add alloc e => add_to_array alloc a e size
  | Insert alloc i e => insert_into_array alloc a i e size
  end.
(** Calls from first to last: their error codes, the blocks freed, and the array *)
Fixpoint array_run (size : Z) (a : array) (ops : list array_op) : outcome (list err * list cptr * array) :=
  match ops with
  | [] => Ok ([], [], a)
  | o :: ops =>
    let! r := array_call size a o in
    let '(e, a, old) := r in
    let! r := array_run size a ops in
    let '(es, olds, a) := r in
    Ok (e :: es, old :: olds, a)
  end.
(** The elements after calls that gave these error codes *)
Fixpoint elements (es : list (list Z)) (ops : list array_op) (errs : list err) : list (list Z) :=
  match ops, errs with
  | o :: ops, e :: errs =>
    elements
      (if is_none e then
         match o with Add _ v => es ++ [v] | Insert _ i v => inserted i v es end
       else es) ops errs
  | _, _ => es
  end.

(** ** Arrays of strings and byte strings *)
Definition holds_blocks (b : blocks) (vs : list (list Z)) (nul : list Z -> bool) : Prop :=
  bl_count b = zlen vs /\ zlen vs <= bl_max b < 2^60 /\
  match bl_array b, bl_lens b with
  | Some a, Some l =>
    zlen a = bl_max b /\ zlen l = bl_max b /\
    take (zlen vs) a = map (fun v => Some (v ++ if nul v then [0] else [])) vs /\
    take (zlen vs) l = map zlen vs
  | None, None => bl_max b = 0
  | _, _ => False
  end.
Definition empty_blocks : blocks := Blocks None None 0 0.
Definition string_nul (v : list Z) : bool := true.
Definition bytes_nul (v : list Z) : bool := zlen v =? 0.

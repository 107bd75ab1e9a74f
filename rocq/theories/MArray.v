(** Model of the array functions of src/protobufs/protobufs.c *)
From Verif Require Import Base MProto.

(** The three variables behind a dynamic array of primitive values: the storage
    of *array (None: NULL), *count and *max. *)
Record array : Type := Array { ar_data : cptr; ar_count : Z; ar_max : Z }.

(** protobufs.c:2047-2056 *)
Definition grow_array (max : Z) : Z :=
  if 64 <=? max then usize (max + 64)
  else if negb (max =? 0) then usize (max * 2)
  else 4.

(** protobufs.c:2256-2266: what the block holds when it is given to free();
    None for the NULL pointer *)
Definition free_memory (ptr : cptr) (size : Z) : outcome cptr :=
  match ptr with
  | None => Ok None
  | Some m => let! m := store m 0 (zeros size) in Ok (Some m)
  end.

(** C library: calloc(n, size); [alloc] tells whether there is memory left.  No
    object is larger than PTRDIFF_MAX = 2^63 - 1. *)
Definition calloc (alloc : bool) (n size : Z) : cptr :=
  if alloc && (n * size <? 2^63) then Some (zeros (n * size)) else None.

(** protobufs.c:2077-2087 and 2228-2238: error code, array and the block that was freed *)
Definition make_room (alloc : bool) (a : array) (size : Z) : outcome (err * array * cptr) :=
  if ar_max a <=? ar_count a then
    let new_max := grow_array (ar_max a) in
    match calloc alloc new_max size with
    | None => Ok (E_NO_MEMORY, a, None)
    | Some new_array =>
      let! new_array :=
        (if negb (ar_count a =? 0) then
           let! d := read_ptr (ar_data a) (usize (ar_count a * size)) in store new_array 0 d
         else Ok new_array) in
      let! old := free_memory (ar_data a) (usize (ar_max a * size)) in
      Ok (E_NONE, Array (Some new_array) (ar_count a) new_max, old)
    end
  else Ok (E_NONE, a, None).

(** protobufs.c:2074-2091 *)
Definition add_to_array (alloc : bool) (a : array) (value : list Z) (size : Z) : outcome (err * array * cptr) :=
  let! r := make_room alloc a size in
  let '(e, a, old) := r in
  if negb (is_none e) then Ok (e, a, old)
  else
    match ar_data a with
    | None => UB
    | Some m =>
      let! d := read_ptr (Some value) size in
      let! m := store m (usize (ar_count a * size)) d in
      Ok (E_NONE, Array (Some m) (usize (ar_count a + 1)) (ar_max a), old)
    end.

(** protobufs.c:2214-2246 *)
Definition insert_into_array (alloc : bool) (a : array) (index : Z) (value : list Z) (size : Z) : outcome (err * array * cptr) :=
  if ar_count a <=? index then add_to_array alloc a value size
  else
    let! r := make_room alloc a size in
    let '(e, a, old) := r in
    if negb (is_none e) then Ok (e, a, old)
    else
      match ar_data a with
      | None => UB
      | Some m =>
        let! d := load m (usize (index * size)) (usize ((ar_count a - index) * size)) in
        let! m := store m (usize ((index + 1) * size)) d in
        let! v := read_ptr (Some value) size in
        let! m := store m (usize (index * size)) v in
        Ok (E_NONE, Array (Some m) (usize (ar_count a + 1)) (ar_max a), old)
      end.

(** ** Arrays of strings and byte strings *)
(** The variables behind such an array: the cells of *array, each holding NULL
    or a pointer to a block, the cells of *len_array, *count and *max.  (Cells
    have sizeof(void * ) = sizeof(size_t) = 8 bytes.) *)
Record blocks : Type := Blocks { bl_array : option (list cptr); bl_lens : option (list Z); bl_count : Z; bl_max : Z }.

(** Checked access to cells *)
Definition cells {A} (p : option (list A)) (n : Z) : outcome (list A) :=
  match p with Some l => if n <=? zlen l then Ok (take n l) else UB | None => UB end.
Definition set_cells {A} (p : option (list A)) (off : Z) (d : list A) : outcome (option (list A)) :=
  match p with
  | Some l => if (0 <=? off) && (off + zlen d <=? zlen l) then Ok (Some (splice off d l)) else UB
  | None => UB
  end.
Definition calloc_cells {A} (alloc : bool) (n : Z) (null : A) : option (list A) :=
  if alloc && (n * 8 <? 2^63) then Some (repeat null (Z.to_nat n)) else None.

(** protobufs.c:2116-2138: error code, array and the copy that was freed.  (The
    release of the old arrays of pointers and lengths is not shown.) *)
Definition grow_blocks (alloc2 alloc3 : bool) (b : blocks) (data : list Z) (size : Z) : outcome (err * blocks * cptr) :=
  if bl_max b <=? bl_count b then
    let new_max := grow_array (bl_max b) in
    let new_array := calloc_cells alloc2 new_max (@None (list Z)) in
    let new_len_array := calloc_cells alloc3 new_max 0 in
    match new_array, new_len_array with
    | Some _, Some _ =>
      let! r :=
        (if negb (bl_count b =? 0) then
           let! d := cells (bl_array b) (bl_count b) in
           let! new_array := set_cells new_array 0 d in
           let! d := cells (bl_lens b) (bl_count b) in
           let! new_len_array := set_cells new_len_array 0 d in
           Ok (new_array, new_len_array)
         else Ok (new_array, new_len_array)) in
      Ok (E_NONE, Blocks (fst r) (snd r) (bl_count b) new_max, None)
    | _, _ => let! old := free_memory (Some data) size in Ok (E_NO_MEMORY, b, old)
    end
  else Ok (E_NONE, b, None).

(** protobufs.c:2097-2145.  Three allocations may fail; the result ends with the
    copy that was freed because of that. *)
Definition add_to_block_array (alloc1 alloc2 alloc3 : bool) (b : blocks) (value : cptr) (size : Z) (add_nul : bool)
    : outcome (err * blocks * cptr) :=
  if match value with None => negb (size =? 0) | Some _ => false end then Ok (E_INVALID_PARAM, b, None)
  else if negb alloc1 then Ok (E_NO_MEMORY, b, None)
  else
    let! d := (if negb (size =? 0) then read_ptr value size else Ok []) in
    (* the contents of fresh memory are arbitrary: all of it is overwritten *)
    let data := d ++ (if add_nul then [0] else []) in
    let! r := grow_blocks alloc2 alloc3 b data size in
    let '(e, b, old) := r in
    if negb (is_none e) then Ok (e, b, old)
    else
      let! a := set_cells (bl_array b) (bl_count b) [Some data] in
      let! l := set_cells (bl_lens b) (bl_count b) [size] in
      Ok (E_NONE, Blocks a l (usize (bl_count b + 1)) (bl_max b), old).

(** protobufs.c:2164-2170, 2189-2195 *)
Definition add_to_string_array (a1 a2 a3 : bool) (b : blocks) (value : cptr) (size : Z) :=
  add_to_block_array a1 a2 a3 b value size true.
Definition add_to_bytes_array (a1 a2 a3 : bool) (b : blocks) (value : cptr) (size : Z) :=
  add_to_block_array a1 a2 a3 b value size (if size =? 0 then true else false).

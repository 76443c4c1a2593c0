(** wire/block.go:38-84 once more, with its pointers.  Model/Wire.v gives
    [Hashes] as values; the code stores in [Hashes] pointers into [Compressed]
    or to the object's own field [PrevHash].  Here the memory is explicit, so
    that what happens to [Hashes] after the decode can be followed.

    Simplified: the slice [Hashes] is a value (the code only writes into the
    array it has just made), and so is [Repeats.Bits]. *)
From Coq Require Import ZArith List Bool.
Import ListNotations.
From Verif.Model Require Import Base Wire.
Open Scope Z_scope.

(** block.go:41: what an element of [Hashes] points to: field PrevHash of
    object [o], or element [i] of the array number [a]. *)
Inductive ref := RPrev (o : nat) | RSlot (a i : nat).
(** block.go:39-44; [None] in [x_hashes] is a nil pointer, [x_compressed] is the
    number of the array behind the slice Compressed. *)
Record object := MkObject {
  x_repeats : BitSet; x_hashes : list (option ref); x_prev : bytes; x_compressed : nat }.
(** All objects of type BlockInterlink and all arrays made by block.go:63. *)
Record memory := MkMemory { objects : list object; arrays : list (list bytes) }.

Fixpoint update {A} (l : list A) (i : nat) (x : A) : list A :=
  match l, i with
  | [], _ => []
  | _ :: l', O => x :: l'
  | y :: l', S i' => y :: update l' i' x
  end.
Definition object_at (m : memory) (o : nat) : option object := nth_error (objects m) o.
Definition array_at (m : memory) (a : nat) : list bytes := nth a (arrays m) [].
Definition put_object (m : memory) (o : nat) (x : object) : memory := MkMemory (update (objects m) o x) (arrays m).
Definition put_slot (m : memory) (a i : nat) (h : bytes) : memory :=
  MkMemory (objects m) (update (arrays m) a (update (array_at m a) i h)).
(** make([][32]byte, n): the new array and its number *)
Definition make_array (m : memory) (n : nat) : memory * nat :=
  (MkMemory (objects m) (arrays m ++ [repeat zero32 n]), length (arrays m)).

(** The fields of an object as the caller reads them; [None] among the hashes is
    a nil pointer. *)
Definition deref (m : memory) (r : ref) : bytes :=
  match r with
  | RPrev o => match object_at m o with Some x => x_prev x | None => [] end
  | RSlot a i => nth i (array_at m a) []
  end.
Record fields := MkFields {
  f_repeats : BitSet; f_hashes : list (option bytes); f_prev : bytes; f_compressed : list bytes }.
Definition read (m : memory) (o : nat) : option fields :=
  match object_at m o with
  | None => None
  | Some x => Some (MkFields (x_repeats x) (map (option_map (deref m)) (x_hashes x)) (x_prev x) (array_at m (x_compressed x)))
  end.

(** block.go:80-81: il.Hashes[i] = hash *)
Definition put_hash (m : memory) (o i : nat) (r : ref) : memory :=
  match object_at m o with
  | Some x => put_object m o (MkObject (x_repeats x) (update (x_hashes x) i (Some r)) (x_prev x) (x_compressed x))
  | None => m
  end.
(** block.go:67-82: the loop from bit [i] on, [n] bits to go; [used] is
    compressedIndex and [hash] the current pointer. *)
Fixpoint decode_loop (m : memory) (o a : nat) (bs : BitSet) (n i : nat) (b : bytes) (hash : ref) (used : nat)
  : memory * res bytes :=
  match n with
  | O => (m, Ok b)
  | S n' =>
      match bit bs (Z.of_nat i) with
      | Ok true => decode_loop (put_hash m o i hash) o a bs n' (S i) b hash used
      | Ok false =>
          if (used <? length (array_at m a))%nat then
            let hash := RSlot a used in
            if zlen b <? 32 then (m, Err EUnexpectedEOF)
            else
              let b1 := skipn 32 b in
              let m1 := put_slot m a used (copy32 b1) in
              decode_loop (put_hash m1 o i hash) o a bs n' (S i) b1 hash (S used)
          else (m, Panic) (* index out of range *)
      | Err e => (m, Err e)
      | _ => (m, Panic)
      end
  end.
(** bitset.go:14-29: what a BitSet is left as when its decoding fails *)
Definition bitset_after (old : BitSet) (b : bytes) : BitSet :=
  match b with
  | [] => old
  | len :: _ => MkBitSet len (repeat 0 (Z.to_nat (w8 (len + 7) / 8)))
  end.
(** block.go:47-84, called on object [o] *)
Definition Decode (m : memory) (o : nat) (b : bytes) : memory * res Z :=
  match object_at m o with
  | None => (m, Panic) (* there is no such object *)
  | Some x =>
      match BitSet_Unmarshal (x_repeats x) b with
      | Ok (bs, n) =>
          let b1 := skipn (Z.to_nat n) b in
          let '(m1, a) := make_array m (Z.to_nat (compressed_count (Bits bs))) in
          let m2 := put_object m1 o (MkObject bs (repeat None (Z.to_nat (Len bs))) (x_prev x) a) in
          let '(m3, r) := decode_loop m2 o a bs (Z.to_nat (Len bs)) 0 b1 (RPrev o) 0 in
          (m3, let? b' := r in Ok (zlen b - zlen b'))
      | Err e => (put_object m o (MkObject (bitset_after (x_repeats x) b) (x_hashes x) (x_prev x) (x_compressed x)), Err e)
      | Panic => (m, Panic)
      | OutOfFuel => (m, OutOfFuel)
      end
  end.

(** What a caller does with objects of this type (block.go:38-44: all the fields
    are exported).  [New]: var il BlockInterlink.  [SetPrev o p]:
    il.PrevHash = p.  [SetSlot o i h]: il.Compressed[i] = h.  [Assign d s]:
    *d = *s, the copy of a struct, as when a block is passed by value. *)
Inductive call := New | Decoding (o : nat) (b : bytes) | SetPrev (o : nat) (p : bytes) | SetSlot (o i : nat) (h : bytes) | Assign (d s : nat).
(** None: the call panics.  A decode that returns an error leaves the object as
    it is at that point. *)
Definition step (m : memory) (c : call) : option memory :=
  match c with
  | New => Some (MkMemory (objects m ++ [MkObject (MkBitSet 0 []) [] zero32 0]) (arrays m))
  | Decoding o b => match Decode m o b with (m', Ok _) | (m', Err _) => Some m' | _ => None end
  | SetPrev o p =>
      match object_at m o with
      | Some x => Some (put_object m o (MkObject (x_repeats x) (x_hashes x) p (x_compressed x)))
      | None => None
      end
  | SetSlot o i h =>
      match object_at m o with
      | Some x => if (i <? length (array_at m (x_compressed x)))%nat then Some (put_slot m (x_compressed x) i h) else None
      | None => None
      end
  | Assign d s =>
      match object_at m d, object_at m s with
      | Some _, Some x => Some (put_object m d x)
      | _, _ => None
      end
  end.
(** array 0 stands for the nil slice *)
Definition start : memory := MkMemory [] [[]].
Fixpoint run (m : memory) (cs : list call) : option memory :=
  match cs with
  | [] => Some m
  | c :: cs' => match step m c with Some m' => run m' cs' | None => None end
  end.

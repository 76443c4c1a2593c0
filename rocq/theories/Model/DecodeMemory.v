(** decode.go once more, with the memory that decoded values occupy.
    Model/Beserial.v gives values only; here slices and pointers refer to cells
    of a memory, the input is a slice of such a cell, and copying and allocating
    are explicit.

    Simplified: strings are values (Go strings are immutable and string(b)
    copies); what an interface holds has no memory of its own here; a type's own
    UnmarshalBESerial is given by its effect on values, and what it returns is
    placed in fresh cells (the methods of package wire copy what they read,
    except that the pointers of a BlockInterlink lead to its own fields: for those
    see Model/InterlinkRefs.v).  A method that fails leaves its receiver alone
    here. *)
From Coq Require Import ZArith List Bool.
Import ListNotations.
From Verif.Model Require Import Base Address Beserial.
Open Scope Z_scope.

(** The contents of a variable.  Arrays and structs lie inside it; a pointer has
    the number of a cell (with one element), a slice has a cell, an offset and a
    length. *)
Inductive mval :=
| MBool (b : bool)
| MNum (z : Z)
| MString (s : bytes)
| MPtr (p : option nat)
| MArr (l : list mval)
| MSlice (c off len : nat)
| MStruct (l : list mval)
| MOpaque (v : val).
Notation mem := (list (list mval)).
Definition cell (m : mem) (c : nat) : list mval := nth c m [].
Definition elems_at (m : mem) (c off len : nat) : list mval := firstn len (skipn off (cell m c)).
(** new, make: a new cell *)
Definition alloc (m : mem) (l : list mval) : mem * nat := (m ++ [l], length m).
Fixpoint set_cell (m : mem) (c : nat) (l : list mval) : mem :=
  match m, c with
  | [], _ => []
  | _ :: m', O => l :: m'
  | x :: m', S c' => x :: set_cell m' c' l
  end.

(** Reading a variable of type [t]: the value in it, [None] if it does not have
    the type (the length of byte arrays is not looked at: they are only ever
    overwritten whole). *)
Fixpoint all_some {A} (l : list (option A)) : option (list A) :=
  match l with
  | [] => Some []
  | Some x :: l' => match all_some l' with Some r => Some (x :: r) | None => None end
  | None :: _ => None
  end.
Fixpoint read (t : ty) (m : mem) (x : mval) {struct t} : option val :=
  match t, x with
  | TBool, MBool b => Some (VBool b)
  | TNum _, MNum z => Some (VNum z)
  | TString, MString s => Some (VString s)
  | TPtr _, MPtr None => Some (VPtr None)
  | TPtr t', MPtr (Some c) =>
      match nth_error m c with
      | Some (y :: _) => match read t' m y with Some v => Some (VPtr (Some v)) | None => None end
      | _ => None
      end
  | TArray n t', MArr l =>
      if is_u8 t' || (length l =? n)%nat then option_map VList (all_some (map (read t' m) l)) else None
  | TSlice t', MSlice c off len =>
      if (length (elems_at m c off len) =? len)%nat
      then option_map VList (all_some (map (read t' m) (elems_at m c off len))) else None
  | TStruct fs, MStruct l =>
      option_map VStruct
        ((fix fields (fs : list (option bytes * ty)) (l : list mval) {struct fs} : option (list val) :=
            match fs, l with
            | [], [] => Some []
            | (_, t0) :: fs', y :: l' =>
                match read t0 m y, fields fs' l' with Some v, Some vs => Some (v :: vs) | _, _ => None end
            | _, _ => None
            end) fs l)
  | TOther, MOpaque v => Some v
  | TCustom _ t', x => read t' m x
  | _, _ => None
  end.

(** reflect.Zero; a nil slice has length 0. *)
Fixpoint mzero (t : ty) : mval :=
  match t with
  | TBool => MBool false
  | TNum _ => MNum 0
  | TString => MString []
  | TPtr _ => MPtr None
  | TArray n t => MArr (repeat (mzero t) n)
  | TSlice _ => MSlice 0 0 0
  | TStruct fs => MStruct (map (fun f => mzero (snd f)) fs)
  | TOther => MOpaque VOther
  | TCustom _ t => mzero t
  end.

(** A value in fresh memory. *)
Fixpoint place_all (f : val -> mem -> mval * mem) (vs : list val) (m : mem) : list mval * mem :=
  match vs with
  | [] => ([], m)
  | v :: vs' => let '(x, m1) := f v m in let '(xs, m2) := place_all f vs' m1 in (x :: xs, m2)
  end.
Fixpoint place (t : ty) (v : val) (m : mem) {struct t} : mval * mem :=
  match t, v with
  | TBool, VBool b => (MBool b, m)
  | TNum _, VNum z => (MNum z, m)
  | TString, VString s => (MString s, m)
  | TPtr t', VPtr (Some v) =>
      let '(x, m1) := place t' v m in let '(m2, c) := alloc m1 [x] in (MPtr (Some c), m2)
  | TPtr _, VPtr None => (MPtr None, m)
  | TArray _ t', VList vs => let '(xs, m1) := place_all (place t') vs m in (MArr xs, m1)
  | TSlice t', VList vs =>
      let '(xs, m1) := place_all (place t') vs m in
      let '(m2, c) := alloc m1 xs in (MSlice c 0 (length xs), m2)
  | TStruct fs, VStruct vs =>
      let '(xs, m1) :=
        (fix fields (fs : list (option bytes * ty)) (vs : list val) (m : mem) {struct fs} : list mval * mem :=
           match fs, vs with
           | (_, t0) :: fs', v0 :: vs' =>
               let '(x, m1) := place t0 v0 m in let '(xs, m2) := fields fs' vs' m1 in (x :: xs, m2)
           | _, _ => ([], m)
           end) fs vs m in
      (MStruct xs, m1)
  | TCustom _ t', v => place t' v m
  | _, v => (MOpaque v, m)
  end.

(** decode.go:43-45: d.data is a slice. *)
Record dec := Dec { d_mem : mem; d_cell : nat; d_off : nat; d_len : nat }.
Definition byte_of (x : mval) : Z := match x with MNum z => z | _ => 0 end.
Definition bytes_in (m : mem) (c off len : nat) : bytes := map byte_of (elems_at m c off len).
(** the remaining input *)
Definition rest (s : dec) : bytes := bytes_in (d_mem s) (d_cell s) (d_off s) (d_len s).
(** d.data = d.data[n:] *)
Definition advance (s : dec) (n : nat) : dec := Dec (d_mem s) (d_cell s) (d_off s + n) (d_len s - n).
Definition with_mem (s : dec) (m : mem) : dec := Dec m (d_cell s) (d_off s) (d_len s).

(** decode.go:271-278: the first [n] bytes, a slice of the input: its offset (cell
    and length are known). *)
Definition mpop (n : Z) (s : dec) : res nat * dec :=
  if Z.of_nat (d_len s) <? n then (Err EUnexpectedEOF, s)
  else (Ok (d_off s), advance s (Z.to_nat n)).
(** decode.go:215-268 *)
Definition mnumber (k : kind) (s : dec) : res Z * dec :=
  match mpop (Z.of_nat (width k)) s with
  | (Ok off, s1) =>
      let b := bytes_in (d_mem s1) (d_cell s1) off (width k) in
      (Ok (match k with
           | U8 | U16 | U32 | U64 | I32 => be_get b
           | I8 | I16 | I64 => to_kind k (be_get b)
           end), s1)
  | (Err e, s1) => (Err e, s1)
  | (Panic, s1) => (Panic, s1)
  | (OutOfFuel, s1) => (OutOfFuel, s1)
  end.
(** decode.go:125-142 *)
Definition mread_len (ts : tags) (s : dec) : res Z * dec :=
  match lenTag ts with
  | None => (Err ENoLenTag, s)
  | Some k =>
      match mnumber k s with
      | (Ok u, s1) =>
          if signed k && (u <? 0) then (Err ENegativeLen, s1)
          else if maxInt <? u then (Err EBadLen, s1)
          else (Ok u, s1)
      | r => r
      end
  end.

(** What a decoding step leaves: the outcome, the contents of the variable (also
    when it fails halfway) and the state. *)
Definition outcome (A : Type) : Type := res unit * A * dec.
Definition failed {A} (r : res unit) (x : A) (s : dec) : outcome A := (r, x, s).
(** forget the value of a result that is not [Ok] *)
Definition lost {A} (r : res A) : res unit := let? _ := r in Ok tt.

(** [n] elements in turn, each decoded over the old one.  Elements of a slice are
    written into its cell when all are decoded; until then the cell is known to
    nobody else. *)
Fixpoint mdec_n (f : mval -> dec -> outcome mval) (l : list mval) (s : dec) : outcome (list mval) :=
  match l with
  | [] => (Ok tt, [], s)
  | x :: l' =>
      match f x s with
      | (Ok _, y, s1) => let '(r, ys, s2) := mdec_n f l' s1 in (r, y :: ys, s2)
      | (r, y, s1) => (r, y :: l', s1)
      end
  end.

(** decode.go:69-81: a type's own method, on a receiver of type [t] with contents
    [x].  Returns the new contents. *)
Definition call_own (c : codec) (t : ty) (x : mval) (s : dec) : outcome mval :=
  match read t (d_mem s) x with
  | None => (Panic, x, s) (* not of the type: impossible in Go *)
  | Some v0 =>
      match cd_unmarshal c v0 (rest s) with
      | Ok (v, n) =>
          if n <? 0 then (Panic, x, s)
          else if zlen (rest s) <? n then (Panic, x, s)
          else let '(y, m) := place t v (d_mem s) in (Ok tt, y, advance (with_mem s m) (Z.to_nat n))
      | Err e => (Err e, x, s)
      | Panic => (Panic, x, s)
      | OutOfFuel => (OutOfFuel, x, s)
      end
  end.

(** decode.go:60-213; [x] is what the variable holds. *)
Fixpoint mvalue (t : ty) (ts : tags) (x : mval) (s : dec) {struct t} : outcome mval :=
  match t with
  | TCustom c t' => call_own c t' x s
  | TPtr t' =>
      match t' with
      | TCustom c t'' =>
          (* 62-66: the method is called on the pointer as it is *)
          match x with
          | MPtr (Some p) =>
              match nth_error (d_mem s) p with
              | Some (y :: _) =>
                  let '(r, y', s1) := call_own c t'' y s in
                  (r, x, with_mem s1 (set_cell (d_mem s1) p [y']))
              | _ => (Panic, x, s)
              end
          | _ => (Panic, x, s)
          end
      | _ =>
          (* 103-107: reflect.New, v.Set, decode into the new cell *)
          let go s :=
            let '(m1, p) := alloc (d_mem s) [mzero t'] in
            let '(r, y, s1) := mvalue t' ts (mzero t') (with_mem s m1) in
            (r, MPtr (Some p), with_mem s1 (set_cell (d_mem s1) p [y])) in
          if optional ts then
            match mpop 1 s with
            | (Ok off, s1) =>
                match bytes_in (d_mem s1) (d_cell s1) off 1 with
                | [0] => (Ok tt, MPtr None, s1)
                | [1] => go s1
                | _ => (Err EBadOptionalFlag, x, s1)
                end
            | (r, s1) => (lost r, x, s1)
            end
          else go s
      end
  | TArray n t' =>
      if is_u8 t' then
        match mpop (Z.of_nat n) s with
        | (Ok off, s1) =>
            if is_custom t' then (Panic, x, s1)
            else (Ok tt, MArr (map (fun b => MNum b) (bytes_in (d_mem s1) (d_cell s1) off n)), s1)  (* 116: reflect.Copy *)
        | (r, s1) => (lost r, x, s1)
        end
      else
        match x with
        | MArr l => let '(r, ys, s1) := mdec_n (mvalue t' no_tags) l s in (r, MArr ys, s1)
        | _ => (Panic, x, s)
        end
  | TString =>
      match mread_len ts s with
      | (Ok u, s1) =>
          match mpop u s1 with
          | (Ok off, s2) => (Ok tt, MString (bytes_in (d_mem s2) (d_cell s2) off (Z.to_nat u)), s2)
          | (r, s2) => (lost r, x, s2)
          end
      | (r, s1) => (lost r, x, s1)
      end
  | TSlice t' =>
      match mread_len ts s with
      | (Ok u, s1) =>
          if is_u8 t' then
            match mpop u s1 with
            | (Ok off, s2) =>
                (* 155-157: make, copy, v.Set *)
                let b := bytes_in (d_mem s2) (d_cell s2) off (Z.to_nat u) in
                let '(m, c) := alloc (d_mem s2) (map (fun b => MNum b) b) in
                (Ok tt, MSlice c 0 (Z.to_nat u), with_mem s2 m)
            | (r, s2) => (lost r, x, s2)
            end
          else if Z.of_nat (d_len s1) <? u then (Err ECannotAlloc, x, s1)
          else
            (* 166-171 *)
            let '(m, c) := alloc (d_mem s1) (repeat (mzero t') (Z.to_nat u)) in
            let '(r, ys, s2) := mdec_n (mvalue t' no_tags) (repeat (mzero t') (Z.to_nat u)) (with_mem s1 m) in
            (r, MSlice c 0 (Z.to_nat u), with_mem s2 (set_cell (d_mem s2) c ys))
      | (r, s1) => (lost r, x, s1)
      end
  | TStruct fs =>
      match x with
      | MStruct l =>
          let '(r, ys, s1) :=
            (fix fields (fs : list (option bytes * ty)) (l : list mval) (s : dec) {struct fs} : outcome (list mval) :=
               match fs, l with
               | [], _ => (Ok tt, [], s)
               | (tag, t0) :: fs', y :: l' =>
                   match field_tags tag with
                   | Ok ts0 =>
                       match mvalue t0 ts0 y s with
                       | (Ok _, z, s1) => let '(r, zs, s2) := fields fs' l' s1 in (r, z :: zs, s2)
                       | (r, z, s1) => (r, z :: l', s1)
                       end
                   | r => (lost r, y :: l', s)
                   end
               | _, [] => (Panic, [], s)
               end) fs l s in
          (r, MStruct ys, s1)
      | _ => (Panic, x, s)
      end
  | TBool =>
      match mpop 1 s with
      | (Ok off, s1) =>
          match bytes_in (d_mem s1) (d_cell s1) off 1 with
          | [0] => (Ok tt, MBool false, s1)
          | [1] => (Ok tt, MBool true, s1)
          | _ => (Err EBadBool, x, s1)
          end
      | (r, s1) => (lost r, x, s1)
      end
  | TNum k =>
      match mnumber k s with
      | (Ok z, s1) => (Ok tt, MNum (to_kind k z), s1)
      | (r, s1) => (lost r, x, s1)
      end
  | TOther => (Err ECannotMarshal, x, s)
  end.

(** decode.go:15-20, 47-58, on a pointer to a variable of type [t] that holds
    [x] and the input data[off : off+len] of cell [c]: outcome, new contents of
    the variable, number of bytes read, memory. *)
Definition MUnmarshal (m : mem) (c off len : nat) (t : ty) (x : mval) : res unit * mval * nat * mem :=
  let '(r, y, s) := mvalue t no_tags x (Dec m c off len) in (r, y, (len - d_len s)%nat, d_mem s).

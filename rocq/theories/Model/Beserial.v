(** Model of package beserial: tags.go, decode.go, encode.go, size.go.

    Go types and values are deeply embedded; [reflect] walks over a value become
    recursions over its type.  Named types without methods are not told apart
    from their underlying types.  A type that implements Marshaler and
    Unmarshaler (on its pointer) is [TCustom] with its methods as a [codec];
    types that implement only one of the two are not modelled.  Nil and empty
    slices are identified (both have length 0).  Errors are modelled by their
    cause: the context that fmt.Errorf("...%w") adds is dropped. *)
From Coq Require Import ZArith List Lia Bool String.
Import ListNotations.
From Verif.Model Require Import Base Address.
Open Scope Z_scope.

(** reflect.Kind of the sized integers. *)
Inductive kind := U8 | U16 | U32 | U64 | I8 | I16 | I32 | I64.
Definition width (k : kind) : nat :=
  match k with U8 | I8 => 1 | U16 | I16 => 2 | U32 | I32 => 4 | U64 | I64 => 8 end.
Definition signed (k : kind) : bool :=
  match k with U8 | U16 | U32 | U64 => false | _ => true end.
Definition modulus (k : kind) : Z := 256 ^ Z.of_nat (width k).

(** Conversion to a sized integer type: intN(x), uintN(x). *)
Definition to_kind (k : kind) (z : Z) : Z :=
  let u := z mod modulus k in
  if signed k then (if u <? modulus k / 2 then u else u - modulus k) else u.

(** Values.  Arrays and slices are [VList]; a pointer is [VPtr None] (nil) or
    points to a value; an interface holds nothing or a dynamic type and the
    value it points to. *)
Inductive val :=
| VBool (b : bool)
| VNum (z : Z)
| VString (s : bytes)
| VPtr (p : option val)
| VList (l : list val)
| VStruct (l : list val)
| VIface (i : option (Z * val))
| VOther.

(** The methods of a type that implements both interfaces (encode.go:28-31,
    decode.go:36-41).  UnmarshalBESerial gets the receiver and the remaining
    input, and returns the new receiver and the count; MarshalBESerial returns
    the extended buffer and an error. *)
Record codec := Codec {
  cd_unmarshal : val -> bytes -> res (val * Z);
  cd_marshal : val -> bytes -> res (bytes * option error) }.

(** tags.go:8-12; [None] is reflect.Invalid. *)
Record tags := Tags { lenTag : option kind; optional : bool }.
Definition no_tags : tags := Tags None false.

(** Types.  [TOther]: interfaces, maps, floats, int, channels, ... *)
Inductive ty :=
| TBool
| TNum (k : kind)
| TString
| TPtr (t : ty)
| TArray (n : nat) (t : ty)
| TSlice (t : ty)
| TStruct (fields : list (option bytes * ty))  (* value of the beserial tag, if any *)
| TOther
| TCustom (c : codec) (t : ty).                (* underlying type *)

(** ** tags.go:14-40 *)
(** strings.Split(tag, ",") *)
Fixpoint split_comma (s : bytes) (cur : bytes) : list bytes :=
  match s with
  | [] => [cur]
  | c :: s' => if c =? 44 then cur :: split_comma s' [] else split_comma s' (cur ++ [c])
  end.
Definition has_prefix (s p : bytes) : bool := bytes_eqb (firstn (List.length p) s) p.
Definition s_optional : bytes := str "optional".
Definition s_len_tag : bytes := str "len_tag=".
(** tags.go:24-35 *)
Definition parse_len (s : bytes) : res kind :=
  if bytes_eqb s (str "uint8") then Ok U8
  else if bytes_eqb s (str "uint16") then Ok U16
  else if bytes_eqb s (str "uint32") then Ok U32
  else if bytes_eqb s (str "uint64") then Ok U64
  else Panic.
(** tags.go:19-39: note that the second case tests [tag], not [el]. *)
Fixpoint parse_elems (tag : bytes) (elems : list bytes) (ts : tags) : res tags :=
  match elems with
  | [] => Ok ts
  | el :: r =>
      if bytes_eqb el s_optional then parse_elems tag r (Tags (lenTag ts) true)
      else if has_prefix tag s_len_tag then
        let? k := parse_len (skipn (List.length s_len_tag) tag) in
        parse_elems tag r (Tags (Some k) (optional ts))
      else Panic
  end.
Definition parse_tag (tag : bytes) : res tags := parse_elems tag (split_comma tag []) no_tags.
(** decode.go:178-182, encode.go:99-103, size.go:76-80 *)
Definition field_tags (tag : option bytes) : res tags :=
  match tag with None => Ok no_tags | Some s => parse_tag s end.

(** The kind of a type, as far as the code inspects it. *)
Fixpoint num_kind (t : ty) : option kind :=
  match t with TNum k => Some k | TCustom _ t => num_kind t | _ => None end.
Definition is_u8 (t : ty) : bool :=
  match num_kind t with Some U8 => true | _ => false end.
Definition is_custom (t : ty) : bool :=
  match t with TCustom _ _ => true | _ => false end.

(** reflect.Zero / the value that make or new creates. *)
Fixpoint zero (t : ty) : val :=
  match t with
  | TBool => VBool false
  | TNum _ => VNum 0
  | TString => VString []
  | TPtr _ => VPtr None
  | TArray n t => VList (repeat (zero t) n)
  | TSlice _ => VList []
  | TStruct fs => VStruct (map (fun f => zero (snd f)) fs)
  | TOther => VOther
  | TCustom _ t => zero t
  end.

(** ** decode.go *)
(** decode.go:43-45: the remaining input; [allocs] records, for each slice or
    string that is allocated, its length and the length of the input that was
    left when the length had been read. *)
Record dstate := DState { data : bytes; allocs : list (Z * Z) }.
(** A decoding step: an outcome and the new state, also when it fails. *)
Definition M (A : Type) : Type := dstate -> res A * dstate.
Definition ret {A} (a : A) : M A := fun s => (Ok a, s).
Definition fail {A} (r : res A) : M A := fun s => (r, s).
Definition err {A} (e : error) : M A := fail (Err e).
Definition mbind {A B} (x : M A) (f : A -> M B) : M B :=
  fun s => match x s with
           | (Ok a, s') => f a s'
           | (Err e, s') => (Err e, s')
           | (Panic, s') => (Panic, s')
           | (OutOfFuel, s') => (OutOfFuel, s')
           end.
Notation "'do' x '<-' e ';' k" := (mbind e (fun x => k))
  (at level 200, x pattern, e at level 100, k at level 200, right associativity).

(** decode.go:271-278.  [n] is never negative here. *)
Definition pop (n : Z) : M bytes := fun s =>
  if zlen (data s) <? n then (Err EUnexpectedEOF, s)
  else (Ok (firstn (Z.to_nat n) (data s)), DState (skipn (Z.to_nat n) (data s)) (allocs s)).

(** decode.go:215-268: the value as uint64 or int64.  Int32 lacks the
    conversion to int32 (line 258): the value is the unsigned one. *)
Definition number (k : kind) : M Z :=
  do b <- pop (Z.of_nat (width k));
  ret (match k with
       | U8 | U16 | U32 | U64 | I32 => be_get b
       | I8 | I16 | I64 => to_kind k (be_get b)
       end).

(** Record an allocation of [n] elements. *)
Definition alloc_elems (n : Z) : M unit := fun s =>
  (Ok tt, DState (data s) (allocs s ++ [(n, zlen (data s))])).

(** decode.go:129-142: reading the length; [maxInt] is 2^63-1. *)
Definition maxInt : Z := 9223372036854775807.
Definition read_len (ts : tags) : M Z :=
  match lenTag ts with
  | None => err ENoLenTag
  | Some k =>
      do u <- number k;
      if signed k && (u <? 0) then err ENegativeLen
      else if maxInt <? u then err EBadLen
      else ret u
  end.

(** decode.go:69-81: call a custom UnmarshalBESerial. *)
Definition call_unmarshal (c : codec) (dst : val) : M val := fun s =>
  match cd_unmarshal c dst (data s) with
  | Ok (v, n) =>
      if n <? 0 then (Panic, s)
      else if zlen (data s) <? n then (Panic, s)
      else (Ok v, DState (skipn (Z.to_nat n) (data s)) (allocs s))
  | Err e => (Err e, s)
  | Panic => (Panic, s)
  | OutOfFuel => (OutOfFuel, s)
  end.

(** Bytes as a list value. *)
Definition vbytes (b : bytes) : val := VList (map VNum b).
Definition hd_val (l : list val) : val := match l with [] => VOther | v :: _ => v end.
Definition elems_of (v : val) : list val := match v with VList l | VStruct l => l | _ => [] end.

(** [n] elements in turn, each decoded over the old one. *)
Fixpoint dec_n (f : val -> M val) (n : nat) (dsts : list val) : M (list val) :=
  match n with
  | O => ret []
  | S n' => do v <- f (hd_val dsts); do vs <- dec_n f n' (List.tl dsts); ret (v :: vs)
  end.

(** decode.go:60-213 *)
Fixpoint value (t : ty) (ts : tags) (dst : val) {struct t} : M val :=
  match t with
  | TCustom c _ => call_unmarshal c dst
  | TPtr t' =>
      match t' with
      | TCustom c _ =>
          match dst with
          | VPtr (Some v0) => do v <- call_unmarshal c v0; ret (VPtr (Some v))
          | _ => fail Panic (* method call on a nil pointer *)
          end
      | _ =>
          (* 85-107 *)
          let go := do v <- value t' ts (zero t'); ret (VPtr (Some v)) in
          if optional ts then
            do flag <- pop 1;
            match flag with
            | [0] => ret (VPtr None)
            | [1] => go
            | _ => err EBadOptionalFlag
            end
          else go
      end
  | TArray n t' =>
      (* 108-123; reflect.Copy panics if the element type is not uint8 itself *)
      if is_u8 t' then
        if is_custom t' then do _ <- pop (Z.of_nat n); fail Panic
        else do b <- pop (Z.of_nat n); ret (vbytes b)
      else do vs <- dec_n (value t' no_tags) n (elems_of dst); ret (VList vs)
  | TString =>
      (* 124-148 *)
      do u <- read_len ts;
      fun s => (do b <- pop u;
                fun s' => (Ok (VString b), DState (data s') (allocs s' ++ [(u, zlen (data s))]))) s
  | TSlice t' =>
      do u <- read_len ts;
      if is_u8 t' then
        (* 149-157 *)
        fun s => (do b <- pop u;
                  fun s' => (Ok (vbytes b), DState (data s') (allocs s' ++ [(u, zlen (data s))]))) s
      else
        (* 158-172 *)
        fun s =>
          if zlen (data s) <? u then (Err ECannotAlloc, s)
          else (do _ <- alloc_elems u;
                do vs <- dec_n (value t' no_tags) (Z.to_nat u) (repeat (zero t') (Z.to_nat u));
                ret (VList vs)) s
  | TStruct fs =>
      (* 173-187 *)
      do vs <- (fix fields (fs : list (option bytes * ty)) (dsts : list val) {struct fs} : M (list val) :=
                  match fs with
                  | [] => ret []
                  | (tag, t0) :: fs' =>
                      do ts0 <- fail (field_tags tag);
                      do v <- value t0 ts0 (hd_val dsts);
                      do vs <- fields fs' (List.tl dsts);
                      ret (v :: vs)
                  end) fs (elems_of dst);
      ret (VStruct vs)
  | TBool =>
      (* 188-200 *)
      do b <- pop 1;
      match b with
      | [0] => ret (VBool false)
      | [1] => ret (VBool true)
      | _ => err EBadBool
      end
  | TNum k => do z <- number k; ret (VNum (to_kind k z))  (* 201-210; SetInt, SetUint convert *)
  | TOther => err ECannotMarshal
  end.

(** The argument of Unmarshal, Marshal and Size, an interface{}: a pointer to a
    value of type [t]; a nil pointer; a value of another kind that can be nil
    (slice, map, ...); anything else, including an untyped nil (reflect's
    IsNil panics on it). *)
Inductive arg :=
| APtr (t : ty) (v : val)
| ANilPtr
| ANilable (isnil : bool)
| ANotNilable.

(** decode.go:15-20, 47-58: the new value of the destination and the number of
    bytes read. *)
Definition Unmarshal (d : bytes) (a : arg) : res (option val) * Z :=
  match a with
  | APtr t dst =>
      let '(r, s) := value t no_tags dst (DState d []) in
      (let? v := r in Ok (Some v), zlen d - zlen (data s))
  | ANilPtr | ANilable true => (Ok None, 0)
  | ANilable false => (Err EInvalidUnmarshal, 0)
  | ANotNilable => (Panic, 0)
  end.
(** decode.go:23-32 *)
Definition UnmarshalFull (d : bytes) (a : arg) : res (option val) :=
  let '(r, n) := Unmarshal d a in
  let? v := r in
  if n <? zlen d then Err ENotFull else Ok v.

(** ** encode.go *)
(** A buffer and an error (nil is [None]); on error the code returns a nil buffer. *)
Definition mret := res (bytes * option error).
Definition m_ok (b : bytes) : mret := Ok (b, None).
Definition m_err (e : error) : mret := Ok ([], Some e).
(** "b, err = ...; if err != nil { return nil, err }" *)
Definition m_then (x : mret) (f : bytes -> mret) : mret :=
  let? (b, e) := x in
  match e with None => f b | Some e => m_err e end.

(** encode.go:128-145 *)
Definition marshalInt (k : kind) (n : Z) (b : bytes) : res bytes :=
  if signed k then Panic else Ok (b ++ be_put (width k) n).
(** encode.go:147-175 *)
Definition marshalNumber (k : kind) (z : Z) (b : bytes) : bytes := b ++ be_put (width k) (to_kind k z).

(** The contents of a []byte or [n]byte. *)
Fixpoint raw_bytes (l : list val) : option bytes :=
  match l with
  | [] => Some []
  | VNum z :: r => match raw_bytes r with Some b => Some (z :: b) | None => None end
  | _ => None
  end.

Fixpoint enc_n (f : val -> bytes -> mret) (l : list val) (b : bytes) : mret :=
  match l with
  | [] => m_ok b
  | v :: r => m_then (f v b) (enc_n f r)
  end.

(** encode.go:33-124.  A value that does not have the type (impossible in Go) panics. *)
Fixpoint marshal (t : ty) (v : val) (b : bytes) (ts : tags) {struct t} : mret :=
  match t with
  | TCustom c _ => cd_marshal c v b
  | TPtr t' =>
      match t' with
      | TCustom c _ =>
          match v with
          | VPtr (Some v0) => cd_marshal c v0 b
          | _ => Panic (* method call on a nil pointer *)
          end
      | _ =>
          match v with
          | VPtr None => if optional ts then m_ok (b ++ [0]) else m_err ENonOptionalNil
          | VPtr (Some v') =>
              (* 50-63: the error is overwritten: "return b, nil" *)
              let b1 := if optional ts then b ++ [1] else b in
              let? (b', _) := marshal t' v' b1 ts in m_ok b'
          | _ => Panic
          end
      end
  | TArray n t' =>
      (* 64-76 *)
      match v with
      | VList l =>
          if negb (Nat.eqb (List.length l) n) then Panic
          else if is_u8 t' then match raw_bytes l with Some r => m_ok (b ++ r) | None => Panic end
          else enc_n (fun v b => marshal t' v b no_tags) l b
      | _ => Panic
      end
  | TString =>
      (* 77-85 *)
      match v with
      | VString s =>
          match lenTag ts with
          | None => m_err ENoLenTag
          | Some k => let? b1 := marshalInt k (zlen s) b in m_ok (b1 ++ s)
          end
      | _ => Panic
      end
  | TSlice t' =>
      (* 77-95 *)
      match v with
      | VList l =>
          match lenTag ts with
          | None => m_err ENoLenTag
          | Some k =>
              let? b1 := marshalInt k (zlen l) b in
              if is_u8 t' then match raw_bytes l with Some r => m_ok (b1 ++ r) | None => Panic end
              else enc_n (fun v b => marshal t' v b no_tags) l b1
          end
      | _ => Panic
      end
  | TStruct fs =>
      (* 96-109 *)
      match v with
      | VStruct l =>
          (fix fields (fs : list (option bytes * ty)) (l : list val) (b : bytes) {struct fs} : mret :=
             match fs, l with
             | [], [] => m_ok b
             | (tag, t0) :: fs', v0 :: l' =>
                 let? ts0 := field_tags tag in
                 m_then (marshal t0 v0 b ts0) (fields fs' l')
             | _, _ => Panic
             end) fs l b
      | _ => Panic
      end
  | TBool =>
      (* 110-115 *)
      match v with VBool x => m_ok (b ++ [if x then 1 else 0]) | _ => Panic end
  | TNum k => match v with VNum z => m_ok (marshalNumber k z b) | _ => Panic end
  | TOther => m_err ECannotMarshal
  end.

(** encode.go:10-24 *)
Definition Marshal (b : bytes) (a : arg) : mret :=
  match a with
  | APtr t v => marshal t v b no_tags
  | ANilPtr | ANilable _ => m_err ENilArg
  | ANotNilable => Panic
  end.

(** ** size.go *)
(** Sum of sizes over a list. *)
Fixpoint size_n (f : val -> res Z) (l : list val) : res Z :=
  match l with
  | [] => Ok 0
  | v :: r => let? n := f v in let? m := size_n f r in Ok (n + m)
  end.
(** size.go:98-111 *)
Definition sizeNumber (k : kind) : Z := Z.of_nat (width k).

(** size.go:21-96.  Marshalers are not consulted: a custom type is sized by its
    underlying type. *)
Fixpoint valueSize (t : ty) (v : val) (ts : tags) {struct t} : res Z :=
  match t with
  | TCustom _ t' => valueSize t' v ts
  | TPtr t' =>
      match v with
      | VPtr None => if optional ts then Ok 1 else Err ENonOptionalNil
      | VPtr (Some v') => let? n := valueSize t' v' ts in Ok ((if optional ts then 1 else 0) + n)
      | _ => Panic
      end
  | TArray n t' =>
      match v with
      | VList l =>
          match num_kind t' with
          | Some k => Ok (Z.of_nat n * sizeNumber k)
          | None => size_n (fun v => valueSize t' v no_tags) l
          end
      | _ => Panic
      end
  | TString =>
      match v with
      | VString s =>
          match lenTag ts with
          | None => Err ENoLenTag
          | Some k => Ok (sizeNumber k + zlen s)
          end
      | _ => Panic
      end
  | TSlice t' =>
      match v with
      | VList l =>
          match lenTag ts with
          | None => Err ENoLenTag
          | Some k =>
              match num_kind t' with
              | Some k' => Ok (sizeNumber k + zlen l * sizeNumber k')
              | None => let? m := size_n (fun v => valueSize t' v no_tags) l in Ok (sizeNumber k + m)
              end
          end
      | _ => Panic
      end
  | TStruct fs =>
      match v with
      | VStruct l =>
          (fix fields (fs : list (option bytes * ty)) (l : list val) {struct fs} : res Z :=
             match fs, l with
             | [], [] => Ok 0
             | (tag, t0) :: fs', v0 :: l' =>
                 let? ts0 := field_tags tag in
                 let? n := valueSize t0 v0 ts0 in
                 let? m := fields fs' l' in
                 Ok (n + m)
             | _, _ => Panic
             end) fs l
      | _ => Panic
      end
  | TNum k => Ok (sizeNumber k)
  | TBool | TOther => Err ECannotMarshal   (* 88-92: Bool is not handled *)
  end.

(** size.go:11-19 *)
Definition Size (a : arg) : res Z :=
  match a with
  | APtr t v => valueSize t v no_tags
  | ANilPtr | ANilable true => Ok 0
  | ANilable false => Err EInvalidUnmarshal
  | ANotNilable => Panic
  end.

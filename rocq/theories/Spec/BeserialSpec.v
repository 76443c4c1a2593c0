(** The beserial format, as described in beserial/doc.go, as a relation between
    values and bytes; and which values can be encoded.  Uses only the data types
    of Model/Beserial.v (types, values, tags) and tag parsing. *)
From Coq Require Import ZArith List Bool.
Import ListNotations.
From Verif.Model Require Import Base Beserial.
Open Scope Z_scope.

(** Range of a sized integer type. *)
Definition in_range (k : kind) (z : Z) : Prop :=
  match k with
  | U8 => 0 <= z < 2 ^ 8 | U16 => 0 <= z < 2 ^ 16 | U32 => 0 <= z < 2 ^ 32 | U64 => 0 <= z < 2 ^ 64
  | I8 => - 2 ^ 7 <= z < 2 ^ 7 | I16 => - 2 ^ 15 <= z < 2 ^ 15
  | I32 => - 2 ^ 31 <= z < 2 ^ 31 | I64 => - 2 ^ 63 <= z < 2 ^ 63
  end.

(** Big-endian, [n] bytes, two's complement. *)
Fixpoint big_endian (n : nat) (z : Z) : list Z :=
  match n with
  | O => []
  | S n' => (z / 256 ^ Z.of_nat n') mod 256 :: big_endian n' z
  end.

(** The value [v] of a type with its own codec has the encoding [e]: its
    MarshalBESerial appends [e] and its UnmarshalBESerial reads it back from any
    input that begins with [e], over any old contents. *)
Definition codec_encodes (c : codec) (v : val) (e : list Z) : Prop :=
  (forall b, cd_marshal c v b = Ok (b ++ e, None)) /\
  (forall dst rest, cd_unmarshal c dst (e ++ rest) = Ok (v, zlen e)).

(** A length that its tag can express (and that fits Go's int). *)
Definition len_fits (k : kind) (n : nat) : Prop :=
  signed k = false /\ Z.of_nat n < 256 ^ Z.of_nat (width k) /\ Z.of_nat n < 2 ^ 63.

(** Elements are encoded one by one; types whose kind is uint8 but which have
    their own codec are not supported as elements (the code copies them raw). *)
Definition elem_ok (t : ty) : Prop := is_u8 t = true -> is_custom t = false.

(** [enc t ts v e]: in a field with tags [ts], the value [v] of type [t] is
    written as the bytes [e]. *)
Inductive enc : ty -> tags -> val -> list Z -> Prop :=
| enc_bool ts b : enc TBool ts (VBool b) [if b then 1 else 0]
| enc_num ts k z : in_range k z -> enc (TNum k) ts (VNum z) (big_endian (width k) z)
| enc_string ts k s :
    lenTag ts = Some k -> len_fits k (length s) ->
    enc TString ts (VString s) (big_endian (width k) (Z.of_nat (length s)) ++ s)
| enc_ptr t ts v e :
    is_custom t = false -> optional ts = false -> enc t ts v e -> enc (TPtr t) ts (VPtr (Some v)) e
| enc_opt_none t ts : is_custom t = false -> optional ts = true -> enc (TPtr t) ts (VPtr None) [0]
| enc_opt_some t ts v e :
    is_custom t = false -> optional ts = true -> enc t ts v e -> enc (TPtr t) ts (VPtr (Some v)) (1 :: e)
| enc_array n t ts vs e :
    elem_ok t -> length vs = n -> enc_elems t vs e -> enc (TArray n t) ts (VList vs) e
| enc_slice t ts k vs e :
    elem_ok t -> lenTag ts = Some k -> len_fits k (length vs) ->
    (length vs <= length e)%nat -> (* no elements of size zero *)
    enc_elems t vs e -> enc (TSlice t) ts (VList vs) (big_endian (width k) (Z.of_nat (length vs)) ++ e)
| enc_struct fs ts vs e : enc_fields fs vs e -> enc (TStruct fs) ts (VStruct vs) e
| enc_custom c t ts v e : codec_encodes c v e -> enc (TCustom c t) ts v e
with enc_elems : ty -> list val -> list Z -> Prop :=
| enc_elems_nil t : enc_elems t [] []
| enc_elems_cons t v vs e es : enc t no_tags v e -> enc_elems t vs es -> enc_elems t (v :: vs) (e ++ es)
with enc_fields : list (option (list Z) * ty) -> list val -> list Z -> Prop :=
| enc_fields_nil : enc_fields [] [] []
| enc_fields_cons tag t fs ts v vs e es :
    field_tags tag = Ok ts -> enc t ts v e -> enc_fields fs vs es ->
    enc_fields ((tag, t) :: fs) (v :: vs) (e ++ es).

(** Types every value of which takes at least one byte. *)
Fixpoint occupies (t : ty) (ts : tags) : bool :=
  match t with
  | TBool | TNum _ | TString | TSlice _ => true
  | TPtr t => optional ts || occupies t ts
  | TArray n t => negb (Nat.eqb n 0) && occupies t no_tags
  | TStruct fs =>
      existsb (fun f => match field_tags (fst f) with Ok ts => occupies (snd f) ts | _ => false end) fs
  | TOther => false
  | TCustom _ _ => true
  end.

(** The values that can be encoded: of the right type, non-optional pointers not
    nil, lengths expressible, codecs that encode the value (in at least one byte). *)
Fixpoint encodable (t : ty) (ts : tags) (v : val) {struct t} : Prop :=
  match t, v with
  | TBool, VBool _ => True
  | TNum k, VNum z => in_range k z
  | TString, VString s => exists k, lenTag ts = Some k /\ len_fits k (length s)
  | TPtr t, VPtr None => is_custom t = false /\ optional ts = true
  | TPtr t, VPtr (Some v) => is_custom t = false /\ encodable t ts v
  | TArray n t, VList vs => elem_ok t /\ length vs = n /\ Forall (encodable t no_tags) vs
  | TSlice t, VList vs =>
      elem_ok t /\ occupies t no_tags = true /\
      (exists k, lenTag ts = Some k /\ len_fits k (length vs)) /\ Forall (encodable t no_tags) vs
  | TStruct fs, VStruct vs =>
      (fix all (fs : list (option (list Z) * ty)) (vs : list val) {struct fs} : Prop :=
         match fs, vs with
         | [], [] => True
         | (tag, t) :: fs, v :: vs => (exists ts, field_tags tag = Ok ts /\ encodable t ts v) /\ all fs vs
         | _, _ => False
         end) fs vs
  | TCustom c _, v => exists e, codec_encodes c v e /\ e <> []
  | _, _ => False
  end.

(** Types that are declared correctly: struct tags parse, elements are not
    uint8-kinds with a codec, no pointers to types with a codec (the code calls
    the method on the pointer as it finds it, nil or not), and every codec has the property [P]. *)
Fixpoint well_declared (P : codec -> Prop) (t : ty) : Prop :=
  match t with
  | TBool | TNum _ | TString | TOther => True
  | TPtr t => is_custom t = false /\ well_declared P t
  | TArray _ t | TSlice t => elem_ok t /\ well_declared P t
  | TStruct fs =>
      (fix all (fs : list (option (list Z) * ty)) : Prop :=
         match fs with
         | [] => True
         | (tag, t) :: fs => (exists ts, field_tags tag = Ok ts) /\ well_declared P t /\ all fs
         end) fs
  | TCustom c _ => P c
  end.
(** A codec that returns a value or an error, and a count within the input. *)
Definition codec_safe (c : codec) : Prop :=
  forall dst d, Forall (fun b => 0 <= b < 256) d ->
  match cd_unmarshal c dst d with
  | Ok (_, n) => 0 <= n <= zlen d
  | Err _ => True
  | Panic | OutOfFuel => False
  end.
(** A codec that re-encodes what it decoded to the bytes it read. *)
Definition codec_canonical (c : codec) : Prop :=
  forall dst d v n, Forall (fun b => 0 <= b < 256) d -> cd_unmarshal c dst d = Ok (v, n) ->
    0 <= n <= zlen d /\ forall b, cd_marshal c v b = Ok (b ++ firstn (Z.to_nat n) d, None).
(** No codec at all. *)
Definition no_codec (c : codec) : Prop := False.

(** The values of a Go type (slices of any length, any pointer may be nil). *)
Fixpoint typed (t : ty) (v : val) {struct t} : Prop :=
  match t, v with
  | TBool, VBool _ => True
  | TNum k, VNum z => in_range k z
  | TString, VString _ => True
  | TPtr _, VPtr None => True
  | TPtr t, VPtr (Some v) => typed t v
  | TArray n t, VList vs => length vs = n /\ Forall (typed t) vs
  | TSlice t, VList vs => Forall (typed t) vs
  | TStruct fs, VStruct vs =>
      (fix all (fs : list (option (list Z) * ty)) (vs : list val) {struct fs} : Prop :=
         match fs, vs with
         | [], [] => True
         | (_, t) :: fs, v :: vs => typed t v /\ all fs vs
         | _, _ => False
         end) fs vs
  | TOther, _ => True
  | TCustom _ t, v => typed t v
  | _, _ => False
  end.

(** Types without pointers. *)
Fixpoint pointer_free (t : ty) : Prop :=
  match t with
  | TPtr _ => False
  | TArray _ t | TSlice t => pointer_free t
  | TStruct fs => (fix all (fs : list (option (list Z) * ty)) : Prop :=
                     match fs with [] => True | (_, t) :: fs => pointer_free t /\ all fs end) fs
  | _ => True
  end.
(** Every part of the value can be encoded: nothing of an unsupported type, no
    string or slice without a length tag, no nil in a non-optional field. *)
Fixpoint parts_ok (t : ty) (ts : tags) (v : val) {struct t} : Prop :=
  match t, v with
  | TBool, _ | TNum _, _ => True
  | TString, _ => lenTag ts <> None
  | TPtr _, VPtr None => optional ts = true
  | TPtr t, VPtr (Some v) => parts_ok t ts v
  | TArray _ t, VList vs => Forall (parts_ok t no_tags) vs
  | TSlice t, VList vs => lenTag ts <> None /\ Forall (parts_ok t no_tags) vs
  | TStruct fs, VStruct vs =>
      (fix all (fs : list (option (list Z) * ty)) (vs : list val) {struct fs} : Prop :=
         match fs, vs with
         | (tag, t) :: fs, v :: vs => (exists ts, field_tags tag = Ok ts /\ parts_ok t ts v) /\ all fs vs
         | _, _ => True
         end) fs vs
  | TCustom c _, v => exists e, forall b, cd_marshal c v b = Ok (b ++ e, None)
  | _, _ => False
  end.
(** A codec whose MarshalBESerial appends to the buffer or returns an error. *)
Definition codec_total (c : codec) : Prop :=
  forall v, (exists e, forall b, cd_marshal c v b = Ok (b ++ e, None)) \/
            (exists er, forall b, exists r, cd_marshal c v b = Ok (r, Some er)).

(** n+1 copies of the word "optional", separated by commas. *)
Fixpoint optionals (n : nat) : list Z :=
  match n with
  | O => s_optional
  | S n' => s_optional ++ 44 :: optionals n'
  end.

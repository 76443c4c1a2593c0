(** A second model of beserial/encode.go, in which the buffer is a Go slice with a
    capacity (slices and append: Model/TreeSlices.v), so that it can be seen which
    bytes Marshal writes.  Model/Beserial.v has the same functions on lists of bytes;
    Props/BufferProps.v proves that the two agree.

    Simplifications: the value [v] shares no memory with the unused capacity of the
    buffer.  A type's own MarshalBESerial appends the pieces [pieces c v b] one after
    the other, for an arbitrary function [pieces] that fits its result in
    Model/Beserial.v ([pieces_ok]); if it fails, what it returns is not part of the
    caller's memory. *)
From Coq Require Import ZArith List Lia Bool.
From stdpp Require Import gmap list.
From Verif.Model Require Import Base Address Beserial TreeSlices.
Open Scope Z_scope.

(** A buffer and an error, and the memory afterwards. *)
Definition sret := res (arrays * slice * option error).
Definition s_ok (r : arrays * slice) : sret := Ok (r.1, r.2, None).
(** "return nil, err" *)
Definition s_err (A : arrays) (e : error) : sret := Ok (A, nil_slice, Some e).
(** "b, err = ...; if err != nil { return nil, err }" *)
Definition s_then (x : sret) (f : arrays -> slice -> sret) : sret :=
  let? (A, b, e) := x in
  match e with None => f A b | Some e => s_err A e end.

Section Marshal.
  Variable grow : grow_policy.
  Variable pieces : codec -> val -> bytes -> list bytes.

  (** Several appends. *)
  Fixpoint appends (A : arrays) (x : slice) (ps : list bytes) : arrays * slice :=
    match ps with
    | [] => (A, x)
    | p :: ps' => let '(A', y) := append grow A x p in appends A' y ps'
    end.
  (** encode.go:43-47: u.MarshalBESerial(b) *)
  Definition s_codec (c : codec) (v : val) (A : arrays) (x : slice) : sret :=
    let? (b, e) := cd_marshal c v (content A x) in
    let '(A', y) := appends A x (pieces c v (content A x)) in
    match e with
    | None => Ok (A', y, None)
    | Some e => let '(A'', z) := fresh_slice A' b 0 in Ok (A'', z, Some e)
    end.

  (** encode.go:128-145 *)
  Definition s_marshalInt (k : kind) (n : Z) (A : arrays) (x : slice) : res (arrays * slice) :=
    if signed k then Panic else Ok (append grow A x (be_put (width k) n)).
  (** encode.go:147-175 *)
  Definition s_marshalNumber (k : kind) (z : Z) (A : arrays) (x : slice) : arrays * slice :=
    append grow A x (be_put (width k) (to_kind k z)).

  (** encode.go:70-75, 88-93 *)
  Fixpoint s_enc_n (f : val -> arrays -> slice -> sret) (l : list val) (A : arrays) (x : slice) : sret :=
    match l with
    | [] => s_ok (A, x)
    | v :: r => s_then (f v A x) (s_enc_n f r)
    end.

  (** encode.go:33-124 *)
  Fixpoint s_marshal (t : ty) (v : val) (A : arrays) (x : slice) (ts : tags) {struct t} : sret :=
    match t with
    | TCustom c _ => s_codec c v A x
    | TPtr t' =>
        match t' with
        | TCustom c _ =>
            match v with
            | VPtr (Some v0) => s_codec c v0 A x
            | _ => Panic
            end
        | _ =>
            match v with
            | VPtr None => if optional ts then s_ok (append grow A x [0]) else s_err A ENonOptionalNil
            | VPtr (Some v') =>
                let '(A1, x1) := if optional ts then append grow A x [1] else (A, x) in
                let? (A2, x2, _) := s_marshal t' v' A1 x1 ts in s_ok (A2, x2)
            | _ => Panic
            end
        end
    | TArray n t' =>
        match v with
        | VList l =>
            if negb (Nat.eqb (List.length l) n) then Panic
            else if is_u8 t' then match raw_bytes l with Some r => s_ok (append grow A x r) | None => Panic end
            else s_enc_n (fun v A x => s_marshal t' v A x no_tags) l A x
        | _ => Panic
        end
    | TString =>
        match v with
        | VString s =>
            match lenTag ts with
            | None => s_err A ENoLenTag
            | Some k => let? (A1, x1) := s_marshalInt k (zlen s) A x in s_ok (append grow A1 x1 s)
            end
        | _ => Panic
        end
    | TSlice t' =>
        match v with
        | VList l =>
            match lenTag ts with
            | None => s_err A ENoLenTag
            | Some k =>
                let? (A1, x1) := s_marshalInt k (zlen l) A x in
                if is_u8 t' then match raw_bytes l with Some r => s_ok (append grow A1 x1 r) | None => Panic end
                else s_enc_n (fun v A x => s_marshal t' v A x no_tags) l A1 x1
            end
        | _ => Panic
        end
    | TStruct fs =>
        match v with
        | VStruct l =>
            (fix fields (fs : list (option bytes * ty)) (l : list val) (A : arrays) (x : slice) {struct fs} : sret :=
               match fs, l with
               | [], [] => s_ok (A, x)
               | (tag, t0) :: fs', v0 :: l' =>
                   let? ts0 := field_tags tag in
                   s_then (s_marshal t0 v0 A x ts0) (fields fs' l')
               | _, _ => Panic
               end) fs l A x
        | _ => Panic
        end
    | TBool => match v with VBool z => s_ok (append grow A x [if z then 1 else 0]) | _ => Panic end
    | TNum k => match v with VNum z => s_ok (s_marshalNumber k z A x) | _ => Panic end
    | TOther => s_err A ECannotMarshal
    end.

  (** encode.go:10-24 *)
  Definition s_Marshal (A : arrays) (x : slice) (a : arg) : sret :=
    match a with
    | APtr t v => s_marshal t v A x no_tags
    | ANilPtr | ANilable _ => s_err A ENilArg
    | ANotNilable => Panic
    end.
End Marshal.

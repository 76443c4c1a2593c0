(** Who owns the memory of a value. *)
From Coq Require Import ZArith List Bool.
Import ListNotations.
From Verif.Model Require Import Base Address Beserial DecodeMemory.
Open Scope Z_scope.

(** The cells that can be reached from a variable of type [t], with repetitions
    (an empty slice gives access to nothing). *)
Fixpoint cells (t : ty) (m : mem) (x : mval) {struct t} : list nat :=
  match t, x with
  | TPtr t', MPtr (Some c) => c :: match nth_error m c with Some (y :: _) => cells t' m y | _ => [] end
  | TArray _ t', MArr l => flat_map (cells t' m) l
  | TSlice t', MSlice c off (S len) => c :: flat_map (cells t' m) (elems_at m c off (S len))
  | TStruct fs, MStruct l =>
      (fix fields (fs : list (option bytes * ty)) (l : list mval) {struct fs} : list nat :=
         match fs, l with
         | (_, t0) :: fs', y :: l' => cells t0 m y ++ fields fs' l'
         | _, _ => []
         end) fs l
  | TCustom _ t', x => cells t' m x
  | _, _ => []
  end.
(** The values of a type, up to number ranges and lengths of byte arrays. *)
Fixpoint shaped (t : ty) (v : val) {struct t} : Prop :=
  match t, v with
  | TBool, VBool _ | TNum _, VNum _ | TString, VString _ | TPtr _, VPtr None => True
  | TPtr t', VPtr (Some v) => shaped t' v
  | TArray n t', VList vs => (is_u8 t' = true \/ length vs = n) /\ Forall (shaped t') vs
  | TSlice t', VList vs => Forall (shaped t') vs
  | TStruct fs, VStruct vs =>
      (fix all (fs : list (option bytes * ty)) (vs : list val) {struct fs} : Prop :=
         match fs, vs with
         | [], [] => True
         | (_, t) :: fs, v :: vs => shaped t v /\ all fs vs
         | _, _ => False
         end) fs vs
  | TOther, _ => True
  | TCustom _ t', v => shaped t' v
  | _, _ => False
  end.
(** Types without pointers to types that have their own UnmarshalBESerial, and
    whose UnmarshalBESerial methods return values of the type. *)
Fixpoint plain (t : ty) : Prop :=
  match t with
  | TBool | TNum _ | TString | TOther => True
  | TPtr t => is_custom t = false /\ plain t
  | TArray _ t | TSlice t => plain t
  | TStruct fs =>
      (fix all (fs : list (option bytes * ty)) : Prop :=
         match fs with [] => True | (_, t) :: fs => plain t /\ all fs end) fs
  | TCustom c t => forall v0 d v n, cd_unmarshal c v0 d = Ok (v, n) -> shaped t v
  end.
(** [x] is the only way to any of its memory, and all of that is new: cells from
    number [n] on. *)
Definition owns (t : ty) (n : nat) (m : mem) (x : mval) : Prop :=
  NoDup (cells t m x) /\ Forall (fun c => n <= c < length m)%nat (cells t m x).
(** Two memories that agree from cell [n] on; below it, the program may have
    written what it likes. *)
Definition agree_from (n : nat) (m m' : mem) : Prop := forall c, (n <= c)%nat -> nth_error m' c = nth_error m c.
Definition agree_below (n : nat) (m m' : mem) : Prop := forall c, (c < n)%nat -> nth_error m' c = nth_error m c.

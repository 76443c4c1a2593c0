(** How much a decoder allocates. *)
From Coq Require Import ZArith List Bool.
Import ListNotations.
From Verif.Model Require Import Base Address Beserial.
Open Scope Z_scope.

(** Number of elements of all slices and strings allocated. *)
Definition total (l : list (Z * Z)) : Z := fold_right (fun a n => fst a + n) 0 l.
(** How deep slices and strings are nested in a type. *)
Fixpoint depth (t : ty) : nat :=
  match t with
  | TString => 1
  | TSlice t => if is_u8 t then 1 else S (depth t)
  | TPtr t | TArray _ t => depth t
  | TStruct fs => (fix most (fs : list (option bytes * ty)) : nat := match fs with [] => O | (_, t) :: fs => Nat.max (depth t) (most fs) end) fs
  | TBool | TNum _ | TOther | TCustom _ _ => O
  end.
(** No value of [t] is read from nothing. *)
Definition takes_a_byte (t : ty) : Prop :=
  forall d dst v n, Unmarshal d (APtr t dst) = (Ok (Some v), n) -> 1 <= n.
(** The elements of all slices in [t] take a byte. *)
Fixpoint solid (t : ty) : Prop :=
  match t with
  | TSlice t => is_u8 t = true \/ (takes_a_byte t /\ solid t)
  | TPtr t | TArray _ t => solid t
  | TStruct fs => (fix all (fs : list (option bytes * ty)) : Prop := match fs with [] => True | (_, t) :: fs => solid t /\ all fs end) fs
  | TBool | TNum _ | TString | TOther | TCustom _ _ => True
  end.

(** What it means that a call leaves the caller's memory alone. *)
From Coq Require Import ZArith List.
From stdpp Require Import gmap list.
From Verif.Model Require Import Base Address Beserial TreeSlices.
Open Scope Z_scope.

(** Every codec in a type. *)
Fixpoint every_codec (P : codec -> Prop) (t : ty) : Prop :=
  match t with
  | TPtr t | TArray _ t | TSlice t => every_codec P t
  | TStruct fs => (fix all (fs : list (option (list Z) * ty)) : Prop :=
                     match fs with [] => True | (_, t) :: fs => every_codec P t /\ all fs end) fs
  | TCustom c _ => P c
  | _ => True
  end.
(** A successful MarshalBESerial has appended the pieces. *)
Definition pieces_ok (pieces : codec -> val -> list Z -> list (list Z)) (c : codec) : Prop :=
  forall v b r, cd_marshal c v b = Ok (r, None) -> r = b ++ concat (pieces c v b).

(** Slice [z] has no element in the unused capacity of [x]: it lies in another array,
    ends before the end of [x], or begins behind the capacity of [x]; or there is no
    unused capacity. *)
Definition apart (z x : slice) : Prop :=
  s_arr z <> s_arr x \/ (s_off z + s_len z <= s_off x + s_len x)%nat \/ (s_off x + s_cap x <= s_off z)%nat \/ s_len x = s_cap x.

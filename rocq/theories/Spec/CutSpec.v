(** Cut-off encodings. *)
From Coq Require Import ZArith List Bool.
Import ListNotations.
From Verif.Model Require Import Base Beserial.
From Verif.Spec Require Import BeserialSpec.
Open Scope Z_scope.

(** The errors that report missing input: io.ErrUnexpectedEOF, and the refusal to
    allocate a slice with more elements than there are bytes left. *)
Definition cut_error (er : error) : Prop := er = EUnexpectedEOF \/ er = ECannotAlloc.
(** [p] is [e] with something missing at the end. *)
Definition cut_off (p e : list Z) : Prop := exists x, x <> [] /\ e = p ++ x.
(** A codec that reports every cut-off encoding. *)
Definition codec_short (c : codec) : Prop :=
  forall v e p x dst, Forall (fun b => 0 <= b < 256) e -> codec_encodes c v e -> e = p ++ x -> x <> [] ->
    exists er, cd_unmarshal c dst p = Err er /\ cut_error er.
(** Slices only of bytes. *)
Fixpoint byte_slices (t : ty) : Prop :=
  match t with
  | TPtr t | TArray _ t => byte_slices t
  | TSlice t => is_u8 t = true
  | TStruct fs => (fix all (fs : list (option (list Z) * ty)) : Prop :=
                     match fs with [] => True | (_, t) :: fs => byte_slices t /\ all fs end) fs
  | _ => True
  end.

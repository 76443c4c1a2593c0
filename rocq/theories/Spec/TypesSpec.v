(** Declared types: which are covered by Model/Beserial.v, which have hidden data, and how
    hidden parts are written.  Uses only the data types of the model. *)
From Coq Require Import ZArith List Bool.
Import ListNotations.
From Verif.Model Require Import Base Beserial BeserialTypes.
Open Scope Z_scope.

(** Where a part of a value is: reached through exported fields only ([Open]), directly an embedded
    unexported field ([Embedded]), or below an unexported field otherwise ([Hidden]).  An exported field of
    an embedded struct is open again (it is promoted), its unexported fields and all elements are hidden. *)
Inductive place := Open | Embedded | Hidden.
Definition is_open (p : place) : bool := match p with Open => true | _ => false end.
Definition in_field (p : place) (v : visibility) : place :=
  match p with
  | Hidden => Hidden
  | _ => match v with Exported => Open | Unexported => Hidden | EmbeddedUnexported => Embedded end
  end.
Definition in_elem (p : place) : place := match p with Open => Open | _ => Hidden end.

(** Ordinary types: nothing but structs in fields that are not exported, so that all data is open; an open
    named type has both methods or none; no array of named bytes without methods. *)
Fixpoint ordinary (t : gty) (p : place) : Prop :=
  match t with
  | GBool | GNum _ | GString | GOther => p = Open
  | GPtr t | GSlice t => p = Open /\ ordinary t Open
  | GArray _ t => p = Open /\ ordinary t Open /\ (g_is_u8 t = true -> match t with GNamed None None _ => False | _ => True end)
  | GStruct fs =>
      (fix all (fs : list (visibility * option bytes * gty)) : Prop :=
         match fs with
         | [] => True
         | (vis, _, t) :: fs => ordinary t (in_field p vis) /\ all fs
         end) fs
  | GNamed um ma t =>
      ordinary t p /\ is_named t = false /\
      (p = Open -> match um, ma with Some _, Some _ | None, None => True | _, _ => False end)
  end.
(** The type of Model/Beserial.v: names without methods are dropped, also those whose methods are
    not called because they are not open. *)
Fixpoint erased (t : gty) (p : place) : ty :=
  match t with
  | GBool => TBool
  | GNum k => TNum k
  | GString => TString
  | GPtr t => TPtr (erased t Open)
  | GArray n t => TArray n (erased t Open)
  | GSlice t => TSlice (erased t Open)
  | GStruct fs => TStruct (map (fun f => (snd (fst f), erased (snd f) (in_field p (fst (fst f))))) fs)
  | GOther => TOther
  | GNamed (Some f) (Some g) t => if is_open p then TCustom (Codec f g) (erased t p) else erased t p
  | GNamed _ _ t => erased t p
  end.

(** Every value of the type has data that is not open: directly, in another field, in an
    array (a pointer, slice, string or byte array is itself data), or behind a pointer that
    cannot be nil.  Parts that decode themselves do not count. *)
Fixpoint hides (t : gty) (p : place) (ts : tags) : bool :=
  match t with
  | GBool | GNum _ | GString | GSlice _ | GOther => negb (is_open p)
  | GPtr t => negb (is_open p) || (negb (optional ts) && match t with GNamed (Some _) _ _ => false | _ => hides t Open ts end)
  | GArray n t => if g_is_u8 t then negb (is_open p) else negb (Nat.eqb n 0) && hides t (in_elem p) no_tags
  | GStruct fs =>
      existsb (fun f => match field_tags (snd (fst f)) with Ok ts => hides (snd f) (in_field p (fst (fst f))) ts | _ => false end) fs
  | GNamed (Some _) _ t => negb (is_open p) && hides t p ts
  | GNamed None _ t => hides t p ts
  end.

(** How a value is written: like one of this type, in which everything is exported and parts that
    are not open have no methods. *)
Fixpoint published (t : gty) (p : place) : gty :=
  match t with
  | GBool | GNum _ | GString | GOther => t
  | GPtr t => GPtr (published t p)
  | GArray n t => GArray n (published t (in_elem p))
  | GSlice t => GSlice (published t (in_elem p))
  | GStruct fs =>
      GStruct (map (fun f => (Exported, snd (fst f), published (snd f) (in_field p (fst (fst f))))) fs)
  | GNamed um ma t => GNamed um (if is_open p then ma else None) (published t p)
  end.

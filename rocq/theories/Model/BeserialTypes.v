(** Package beserial on types that Model/Beserial.v leaves out: structs with unexported fields,
    named types without methods, and types that implement only one of Marshaler and
    Unmarshaler.  Same code (decode.go, encode.go), with package reflect's rules about values
    reached through unexported fields (Go 1.16): their methods cannot be called
    (CanInterface is false), they can be read, and storing into them panics.
    Named pointer types are not modelled. *)
From Coq Require Import ZArith List Bool.
Import ListNotations.
From Verif.Model Require Import Base Beserial.
Open Scope Z_scope.

(** A struct field: exported; unexported; unexported and embedded. *)
Inductive visibility := Exported | Unexported | EmbeddedUnexported.
(** The read-only flags of a reflect.Value: none, flagEmbedRO, flagStickyRO. *)
Inductive access := Free | EmbedRO | StickyRO.
Definition is_free (a : access) : bool := match a with Free => true | _ => false end.
(** reflect.Value.Field: flagEmbedRO is dropped, flagStickyRO kept *)
Definition field_access (a : access) (v : visibility) : access :=
  match a, v with
  | StickyRO, _ => StickyRO
  | _, Exported => Free
  | _, Unexported => StickyRO
  | _, EmbeddedUnexported => EmbedRO
  end.
(** reflect.Value.Index and Slice: flag.ro() *)
Definition elem_access (a : access) : access := match a with Free => Free | _ => StickyRO end.

(** Types.  [GNamed um ma t]: a declared type with underlying type [t] and the methods
    UnmarshalBESerial and MarshalBESerial (with SizeBESerial) on its pointer, each if it has them. *)
Inductive gty :=
| GBool
| GNum (k : kind)
| GString
| GPtr (t : gty)
| GArray (n : nat) (t : gty)
| GSlice (t : gty)
| GStruct (fields : list (visibility * option bytes * gty))
| GOther
| GNamed (um : option (val -> bytes -> res (val * Z))) (ma : option (val -> bytes -> res (bytes * option error))) (t : gty).

(** reflect.Kind, as far as the code asks for it *)
Fixpoint g_num_kind (t : gty) : option kind :=
  match t with GNum k => Some k | GNamed _ _ t => g_num_kind t | _ => None end.
Definition g_is_u8 (t : gty) : bool := match g_num_kind t with Some U8 => true | _ => false end.
Definition is_named (t : gty) : bool := match t with GNamed _ _ _ => true | _ => false end.
(** reflect.Zero *)
Fixpoint g_zero (t : gty) : val :=
  match t with
  | GBool => VBool false
  | GNum _ => VNum 0
  | GString => VString []
  | GPtr _ => VPtr None
  | GArray n t => VList (repeat (g_zero t) n)
  | GSlice _ => VList []
  | GStruct fs => VStruct (map (fun f => g_zero (snd f)) fs)
  | GOther => VOther
  | GNamed _ _ t => g_zero t
  end.

(** decode.go:69-81; the other method is not used *)
Definition call_um (f : val -> bytes -> res (val * Z)) (dst : val) : M val :=
  call_unmarshal (Codec f (fun _ _ => Panic)) dst.
(** reflect.Value.Set and the like: mustBeAssignable *)
Definition set (a : access) (v : val) : M val := if is_free a then ret v else fail Panic.

(** decode.go:60-213 *)
Fixpoint g_value (t : gty) (a : access) (ts : tags) (dst : val) {struct t} : M val :=
  match t with
  | GNamed um _ t' =>
      match um with
      | Some f => if is_free a then call_um f dst else g_value t' a ts dst
      | None => g_value t' a ts dst
      end
  | GPtr t' =>
      (* 85-107 *)
      let go :=
        if is_free a then do v <- g_value t' Free ts (g_zero t'); ret (VPtr (Some v)) else fail Panic in
      let generic :=
        if optional ts then
          do flag <- pop 1;
          match flag with
          | [0] => set a (VPtr None)
          | [1] => go
          | _ => err EBadOptionalFlag
          end
        else go in
      match t' with
      | GNamed (Some f) _ _ =>
          if is_free a then
            match dst with
            | VPtr (Some v0) => do v <- call_um f v0; ret (VPtr (Some v))
            | _ => fail Panic (* method call on a nil pointer *)
            end
          else generic
      | _ => generic
      end
  | GArray n t' =>
      (* 108-123; reflect.Copy wants an assignable array and the element type uint8 itself *)
      if g_is_u8 t' then
        do b <- pop (Z.of_nat n);
        if is_named t' then fail Panic else set a (vbytes b)
      else do vs <- dec_n (g_value t' (elem_access a) no_tags) n (elems_of dst); ret (VList vs)
  | GString =>
      (* 124-148 *)
      do u <- read_len ts;
      fun s => (do b <- pop u;
                do v <- set a (VString b);
                fun s' => (Ok v, DState (data s') (allocs s' ++ [(u, zlen (data s))]))) s
  | GSlice t' =>
      do u <- read_len ts;
      if g_is_u8 t' then
        (* 149-157 *)
        fun s => (do b <- pop u;
                  do v <- set a (vbytes b);
                  fun s' => (Ok v, DState (data s') (allocs s' ++ [(u, zlen (data s))]))) s
      else
        (* 158-172 *)
        fun s =>
          if zlen (data s) <? u then (Err ECannotAlloc, s)
          else (do _ <- alloc_elems u;
                do _ <- set a (VList []);
                do vs <- dec_n (g_value t' Free no_tags) (Z.to_nat u) (repeat (g_zero t') (Z.to_nat u));
                ret (VList vs)) s
  | GStruct fs =>
      (* 173-187 *)
      do vs <- (fix fields (fs : list (visibility * option bytes * gty)) (dsts : list val) {struct fs} : M (list val) :=
                  match fs with
                  | [] => ret []
                  | (vis, tag, t0) :: fs' =>
                      do ts0 <- fail (field_tags tag);
                      do v <- g_value t0 (field_access a vis) ts0 (hd_val dsts);
                      do vs <- fields fs' (List.tl dsts);
                      ret (v :: vs)
                  end) fs (elems_of dst);
      ret (VStruct vs)
  | GBool =>
      (* 188-200 *)
      do b <- pop 1;
      match b with
      | [0] => set a (VBool false)
      | [1] => set a (VBool true)
      | _ => err EBadBool
      end
  | GNum k => do z <- number k; set a (VNum (to_kind k z))  (* 201-210 *)
  | GOther => err ECannotMarshal
  end.

(** decode.go:15-20, 47-58, of a pointer to a value *)
Definition g_Unmarshal (d : bytes) (t : gty) (dst : val) : res val * Z :=
  let '(r, s) := g_value t Free no_tags dst (DState d []) in (r, zlen d - zlen (data s)).

(** encode.go:33-124 *)
Fixpoint g_marshal (t : gty) (a : access) (v : val) (b : bytes) (ts : tags) {struct t} : mret :=
  match t with
  | GNamed _ ma t' =>
      match ma with
      | Some f => if is_free a then f v b else g_marshal t' a v b ts
      | None => g_marshal t' a v b ts
      end
  | GPtr t' =>
      (* 49-63; reflect.Value.Elem keeps the flags *)
      let generic :=
        match v with
        | VPtr None => if optional ts then m_ok (b ++ [0]) else m_err ENonOptionalNil
        | VPtr (Some v') =>
            let b1 := if optional ts then b ++ [1] else b in
            let? (b', _) := g_marshal t' a v' b1 ts in m_ok b'
        | _ => Panic
        end in
      match t' with
      | GNamed _ (Some f) _ =>
          if is_free a then match v with VPtr (Some v0) => f v0 b | _ => Panic end else generic
      | _ => generic
      end
  | GArray n t' =>
      (* 64-76 *)
      match v with
      | VList l =>
          if negb (Nat.eqb (List.length l) n) then Panic
          else if g_is_u8 t' then match raw_bytes l with Some r => m_ok (b ++ r) | None => Panic end
          else enc_n (fun v b => g_marshal t' (elem_access a) v b no_tags) l b
      | _ => Panic
      end
  | GString =>
      (* 77-85 *)
      match v with
      | VString s =>
          match lenTag ts with
          | None => m_err ENoLenTag
          | Some k => let? b1 := marshalInt k (zlen s) b in m_ok (b1 ++ s)
          end
      | _ => Panic
      end
  | GSlice t' =>
      (* 77-95 *)
      match v with
      | VList l =>
          match lenTag ts with
          | None => m_err ENoLenTag
          | Some k =>
              let? b1 := marshalInt k (zlen l) b in
              if g_is_u8 t' then match raw_bytes l with Some r => m_ok (b1 ++ r) | None => Panic end
              else enc_n (fun v b => g_marshal t' (elem_access a) v b no_tags) l b1
          end
      | _ => Panic
      end
  | GStruct fs =>
      (* 96-109 *)
      match v with
      | VStruct l =>
          (fix fields (fs : list (visibility * option bytes * gty)) (l : list val) (b : bytes) {struct fs} : mret :=
             match fs, l with
             | [], [] => m_ok b
             | (vis, tag, t0) :: fs', v0 :: l' =>
                 let? ts0 := field_tags tag in
                 m_then (g_marshal t0 (field_access a vis) v0 b ts0) (fields fs' l')
             | _, _ => Panic
             end) fs l b
      | _ => Panic
      end
  | GBool => match v with VBool x => m_ok (b ++ [if x then 1 else 0]) | _ => Panic end  (* 110-115 *)
  | GNum k => match v with VNum z => m_ok (marshalNumber k z b) | _ => Panic end        (* 116-122 *)
  | GOther => m_err ECannotMarshal
  end.
(** encode.go:10-24, of a pointer to a value *)
Definition g_Marshal (b : bytes) (t : gty) (v : val) : mret := g_marshal t Free v b no_tags.

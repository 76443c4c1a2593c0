(** Lemmas about network messages, network addresses and peer addresses. *)
From Coq Require Import ZArith List Lia Bool String.
Import ListNotations.
From Verif.Model Require Import Base Address Beserial Wire Messages.
From Verif.Spec Require Import BeserialSpec WireSpec.
From Verif.Proofs Require Import BaseFacts BeserialFacts WireFacts InterlinkFacts BlockFacts.
From Verif.Props Require Import BeserialProps.
Open Scope Z_scope.

(** ** Pings *)
Lemma ping_of_v p : ping_of (v_ping p) = p.
Proof. destruct p. reflexivity. Qed.
Lemma ping_safe : codec_safe ping_codec.
Proof.
  apply typed_codec_safe. intros p d Hd. unfold Ping_Unmarshal. destruct (Z.ltb_spec (zlen d) 4); [exact I|lia].
Qed.

(** ** Network addresses *)
Lemma netaddr_of_v a : netaddr_of (v_netaddr a) = a.
Proof. destruct a as [x y]. unfold netaddr_of, v_netaddr. cbn [fld nth num_of na_type na_ip]. rewrite bytes_of_vbytes. reflexivity. Qed.
(** What NetAddress.UnmarshalBESerial does. *)
Lemma netaddr_unm na d : bytes_ok d ->
  NetAddress_Unmarshal na d =
  match d with
  | [] => Err EUnexpectedEOF
  | t :: d' =>
      if t =? 0 then if zlen d' <? 4 then Err EUnexpectedEOF else Ok (MkNetAddress (na_type na) (firstn 4 d'), 5)
      else if t =? 1 then if zlen d' <? 16 then Err EUnexpectedEOF else Ok (MkNetAddress (na_type na) (firstn 16 d'), 17)
      else Err EBadNetAddrType
  end.
Proof.
  intros Hd. destruct d as [|t d']; [reflexivity|]. apply Forall_inv in Hd. unfold NetAddress_Unmarshal.
  assert (U : Unmarshal (t :: d') (APtr (TNum U8) (VNum 0)) = (Ok (Some (VNum t)), 1)).
  { unfold Unmarshal, value, number, mbind, pop. cbn [data width]. rewrite zlen_cons. pose proof (zlen_nonneg d').
    replace (1 + zlen d' <? Z.of_nat 1) with false by (symmetry; apply Z.ltb_ge; lia). change (Z.to_nat (Z.of_nat 1)) with 1%nat.
    cbn [firstn skipn]. unfold ret. cbn [bind data]. unfold is_byte in Hd.
    rewrite to_kind_id.
    - f_equal. lia.
    - unfold be_get. cbn [be_get_acc in_range]. lia. }
  rewrite U. cbn [bind num_of]. change (Z.to_nat 1) with 1%nat. cbn [skipn]. reflexivity.
Qed.
Lemma netaddr_safe : codec_safe netaddr_codec.
Proof.
  apply typed_codec_safe. intros a d Hd. rewrite netaddr_unm by exact Hd. destruct d as [|t d]; [exact I|]. rewrite zlen_cons.
  destruct (t =? 0); [destruct (Z.ltb_spec (zlen d) 4); [exact I|lia]|]. destruct (t =? 1); [destruct (Z.ltb_spec (zlen d) 16); [exact I|lia]|]. exact I.
Qed.

(** ** Peer addresses *)
Lemma declared_peer_header : well_declared codec_safe ty_peer_header.
Proof. pose proof netaddr_safe. cbn. declare. Qed.
Lemma peer_unm_err pa d : bytes_ok d -> exists e, PeerAddress_Unmarshal pa d = Err e.
Proof.
  intros Hd. unfold PeerAddress_Unmarshal.
  destruct (C28_unmarshal_total ty_peer_header (v_peer_header (pa_header pa)) d declared_peer_header Hd) as (r & n & E & Hn & Hr & _ & _).
  rewrite E. destruct Hr as [(v & ->)|(e & ->)]; cbn [bind]; [|eauto].
  destruct (pa_protocol (peer_header_of v) =? 0); cbn [bind]; [eexists; reflexivity|].
  destruct ((pa_protocol (peer_header_of v) =? 4) || (pa_protocol (peer_header_of v) =? 1)); cbn [bind]; eexists; reflexivity.
Qed.
Lemma peer_safe : codec_safe peer_codec.
Proof. apply typed_codec_safe. intros a d Hd. destruct (peer_unm_err a d Hd) as (e & ->). exact I. Qed.

(** ** Sizes that cannot be computed *)
(** Size always fails: a bool, an interface, or a string or slice without a
    length tag is always part of the value. *)
Fixpoint never_sized (t : ty) (ts : tags) : bool :=
  match t with
  | TBool | TOther => true
  | TNum _ => false
  | TString | TSlice _ => match lenTag ts with None => true | Some _ => false end
  | TPtr _ | TArray _ _ => false
  | TStruct fs =>
      (fix any (fs : list (option bytes * ty)) : bool :=
         match fs with
         | [] => false
         | (tag, t) :: fs => match field_tags tag with Ok ts => never_sized t ts | _ => true end || any fs
         end) fs
  | TCustom _ t => never_sized t ts
  end.
Definition any_never : list (option bytes * ty) -> bool :=
  fix any (fs : list (option bytes * ty)) : bool :=
    match fs with
    | [] => false
    | (tag, t) :: fs => match field_tags tag with Ok ts => never_sized t ts | _ => true end || any fs
    end.
Lemma never_sized_spec t : forall ts v n, never_sized t ts = true -> valueSize t v ts <> Ok n.
Proof.
  induction t as [|k| |t IH|m t IH|t IH|fs IH| |c t IH] using ty_ind'; intros ts v n Hn E; try discriminate Hn; try discriminate E.
  - cbn [never_sized] in Hn. cbn [valueSize] in E. destruct v; try discriminate. destruct (lenTag ts); discriminate.
  - cbn [never_sized] in Hn. cbn [valueSize] in E. destruct v; try discriminate. destruct (lenTag ts); discriminate.
  - destruct v as [| | | | |vs| |]; try discriminate E. rewrite size_struct in E. change (any_never fs = true) in Hn.
    revert vs n E. induction IH as [|(tag & t) fs Ht Hfs IHfs]; intros vs n E; [discriminate|].
    destruct vs as [|v vs]; [discriminate|]. cbn [size_fields] in E. cbn [any_never] in Hn. fold any_never in Hn.
    destruct (field_tags tag) as [ts0|e| |]; try discriminate. cbn [bind] in E. cbn [snd] in Ht.
    destruct (valueSize t v ts0) as [a|e| |] eqn:Ea; try discriminate. cbn [bind] in E.
    destruct (size_fields fs vs) as [b|e| |] eqn:Eb; try discriminate.
    apply orb_true_iff in Hn as [Hn|Hn]; [exact (Ht _ _ _ Hn Ea)|exact (IHfs Hn _ _ Eb)].
  - exact (IH ts v n Hn E).
Qed.
(** Size does not panic on values of the type. *)
Fixpoint tags_parse (t : ty) : Prop :=
  match t with
  | TPtr t | TArray _ t | TSlice t | TCustom _ t => tags_parse t
  | TStruct fs =>
      (fix all (fs : list (option bytes * ty)) : Prop :=
         match fs with [] => True | (tag, t) :: fs => (exists ts, field_tags tag = Ok ts) /\ tags_parse t /\ all fs end) fs
  | _ => True
  end.
Definition all_parse : list (option bytes * ty) -> Prop :=
  fix all (fs : list (option bytes * ty)) : Prop :=
    match fs with [] => True | (tag, t) :: fs => (exists ts, field_tags tag = Ok ts) /\ tags_parse t /\ all fs end.
Definition returns {A} (r : res A) : Prop := (exists n, r = Ok n) \/ exists e, r = Err e.
Lemma returns_bind {A B} (x : res A) (f : A -> res B) : returns x -> (forall a, returns (f a)) -> returns (bind x f).
Proof. intros [(n & ->)|(e & ->)] Hf; cbn [bind]; [apply Hf|right; eauto]. Qed.
Lemma returns_ok {A} (a : A) : returns (Ok a).
Proof. left; eauto. Qed.
Lemma returns_err {A} e : returns (@Err A e).
Proof. right; eauto. Qed.
Lemma size_returns t : tags_parse t -> forall ts v, typed t v -> returns (valueSize t v ts).
Proof.
  assert (L : forall (f : val -> res Z) vs, Forall (fun v => returns (f v)) vs -> returns (size_n f vs)).
  { intros f vs. induction 1; cbn [size_n]; [apply returns_ok|]. apply returns_bind; [assumption|]. intros a.
    apply returns_bind; [assumption|]. intros b. apply returns_ok. }
  induction t as [|k| |t IH|m t IH|t IH|fs IH| |c t IH] using ty_ind'; intros Hp ts v Hv; cbn [valueSize].
  - apply returns_err.
  - apply returns_ok.
  - destruct v; try contradiction. destruct (lenTag ts); [apply returns_ok|apply returns_err].
  - destruct v as [| | |[v|]| | | |]; try contradiction.
    + apply returns_bind; [exact (IH Hp ts v Hv)|intros; apply returns_ok].
    + destruct (optional ts); [apply returns_ok|apply returns_err].
  - destruct v; try contradiction. destruct Hv as (_ & Hv). destruct (num_kind t); [apply returns_ok|]. apply L.
    eapply Forall_impl; [|exact Hv]. intros x Hx. exact (IH Hp no_tags x Hx).
  - destruct v; try contradiction. destruct (lenTag ts); [|apply returns_err]. destruct (num_kind t); [apply returns_ok|].
    apply returns_bind; [|intros; apply returns_ok]. apply L. eapply Forall_impl; [|exact Hv]. intros x Hx. exact (IH Hp no_tags x Hx).
  - apply typed_struct in Hv as (vs & -> & Hv). change (returns (size_fields fs vs)). change (all_parse fs) in Hp.
    revert vs Hv. induction IH as [|(tag & t) fs Ht Hfs IHfs]; intros [|v vs] Hv; try contradiction; cbn [size_fields]; [apply returns_ok|].
    destruct Hp as ((ts0 & Et) & Hp1 & Hp2). destruct Hv as (Hv1 & Hv2). rewrite Et. cbn [bind].
    apply returns_bind; [exact (Ht Hp1 _ _ Hv1)|]. intros a. apply returns_bind; [exact (IHfs Hp2 _ Hv2)|]. intros b. apply returns_ok.
  - apply returns_err.
  - exact (IH Hp ts v Hv).
Qed.
Lemma message_tags_parse k : tags_parse (ty_message k).
Proof. destruct k; cbn [tags_parse ty_message field tagged ty_peer ty_peer_header ty_netaddr bytesN ty_inv_vector ty_block ty_header ty_interlink ty_bitset ty_body ty_wrap_tx ty_pruned ty_wrap_account]; repeat split; eexists; reflexivity. Qed.
Lemma size_fails t v ts : tags_parse t -> never_sized t ts = true -> typed t v -> exists e, valueSize t v ts = Err e.
Proof.
  intros Hp Hn Hv. destruct (size_returns t Hp ts v Hv) as [(n & E)|E]; [|exact E]. destruct (never_sized_spec t ts v n Hn E).
Qed.

(** ** UnmarshalMessage *)
Lemma message_declared k : k <> KBlock -> well_declared codec_safe (ty_message k).
Proof.
  pose proof peer_safe as H1. pose proof wrap_tx_safe as H2. pose proof ping_safe as H3. intros Hk. destruct k; cbn [well_declared ty_message field tagged ty_peer ty_peer_header ty_netaddr bytesN ty_inv_vector ty_block ty_header ty_interlink ty_bitset ty_body ty_wrap_tx ty_pruned ty_wrap_account]; try congruence; declare.
Qed.
Lemma unmarshal_message_returns k v buf : bytes_ok buf -> k <> KBlock ->
  returns (let '(r, n) := Unmarshal buf (APtr (ty_message k) v) in
           let? o := r in if n =? zlen buf then Ok (match o with Some v => MPtr k v | _ => MPtr k v end) else Err (EJunk (zlen buf - n))).
Proof.
  intros Hb Hk. destruct (C28_unmarshal_total (ty_message k) v buf (message_declared k Hk) Hb) as (r & n & E & _ & Hr & _).
  rewrite E. destruct Hr as [(w & ->)|(e & ->)]; cbn [bind]; [|apply returns_err]. destruct (n =? zlen buf); [apply returns_ok|apply returns_err].
Qed.
Lemma new_message_kinds typ m : new_message typ = Some m ->
  (typ = 6 /\ m = MPtr KBlock (zero (ty_message KBlock))) \/ (m = MEmpty typ /\ (typ = 9 \/ typ = 40 \/ typ = 60)) \/
  (typ <> 6 /\ typ <> 9 /\ typ <> 40 /\ typ <> 60 /\ exists k v, m = MPtr k v /\ k <> KBlock).
Proof.
  unfold new_message. cbv zeta. intros H.
  repeat match type of H with (if ?t =? ?c then _ else _) = _ => let E := fresh in destruct (Z.eqb_spec t c) as [E|E] end;
    try discriminate H.
  all: try (right; right; do 4 (split; [lia|]); eexists; eexists; split; [symmetry; apply (f_equal (fun o => match o with Some x => x | None => m end)) in H; exact H|discriminate]).
  all: try (right; left; split; [congruence|lia]).
  all: left; split; [assumption|congruence].
Qed.
Lemma value_block_message dst s :
  value (ty_message KBlock) no_tags dst s = (do b <- value ty_block no_tags (hd_val (elems_of dst)); ret (VStruct [b])) s.
Proof.
  unfold ty_message. rewrite value_struct. cbn [value_fields field field_tags]. unfold mbind, fail, ret.
  destruct (value ty_block no_tags (hd_val (elems_of dst)) s) as ([h|e| |] & s1); reflexivity.
Qed.
Lemma unmarshal_block_message d :
  Unmarshal d (APtr (ty_message KBlock) (zero (ty_message KBlock))) =
  (let '(r, n) := Unmarshal d (APtr ty_block (zero ty_block)) in
   (let? o := r in Ok (match o with Some v => Some (VStruct [v]) | None => None end), n)).
Proof.
  unfold Unmarshal. rewrite value_block_message. change (hd_val (elems_of (zero (ty_message KBlock)))) with (zero ty_block). unfold mbind.
  destruct (value ty_block no_tags (zero ty_block) (DState d [])) as ([v|e| |] & s); reflexivity.
Qed.

(** Properties C72, C73: genesis and replay. *)
From Coq Require Import ZArith List Lia Bool String.
From stdpp Require Import gmap list.
From Verif.Model Require Import Base Address Beserial Wire Policy Account Tree Accounts Genesis.
From Verif.Spec Require Import AddressSpec TreeSpec TreeHistory PolicySpec BeserialSpec WireSpec AccountSpec AccountsSpec GenesisSpec.
From Verif.Proofs Require Import BaseFacts PolicyFacts BeserialFacts WireFacts BlockFacts LayoutFacts AccountFacts LedgerFacts PushFacts AccountsFacts TransferFacts.
From Verif.Props Require Import BeserialProps TreeProps WireProps BlockProps AccountProps AccountsProps PushProps.
Open Scope Z_scope.

(** ** Lemmas *)
Lemma put_accounts_ok H oob c l : hash_fn H ->
  Forall (fun e => array 20 (p_address e) /\ forall x, p_account e = Some x -> account_ok x) l ->
  forall s M, areach H oob s c -> lists s M ->
  exists s1 M1, put_accounts H l s = (Ok tt, s1) /\ areach H oob s1 c /\ lists s1 M1 /\ forall a, acct M1 a = overwritten M l a.
Proof.
  intros HH Hl. induction l as [|e l IH] using rev_ind; intros s M Hr HL.
  - exists s, M. cbn. auto.
  - apply Forall_app in Hl as (Hl & He). inversion He as [|? ? (Ha & Hx) _]; subst.
    destruct (IH Hl s M Hr HL) as (s1 & M1 & E1 & Hr1 & HL1 & A1).
    destruct (lists_holds H oob s1 c M1 HH Hr1 HL1) as (HM1 & _).
    destruct (tree_put H s1 M1 (p_address e) (p_account e) HM1 Ha Hx) as (s2 & E2 & HM2).
    exists s2, (set_acct M1 (p_address e) (p_account e)).
    assert (Eq : forall l' s' s1', put_accounts H l' s' = (Ok tt, s1') -> put_accounts H (l' ++ [e]) s' = put_accounts H [e] s1').
    { clear. induction l' as [|e' l' IH']; intros s' s1' E; [cbn in E; injection E as <-; reflexivity|].
      cbn [put_accounts app] in E |- *. destruct (tree_put_account H s' (p_address e') (p_account e')); try discriminate E. apply IH'. exact E. }
    split; [rewrite (Eq _ _ _ E1); cbn [put_accounts]; rewrite E2; reflexivity|].
    split; [eapply areach_put; eassumption|]. split; [eapply holds_lists, HM2|].
    intros a. rewrite acct_set. unfold overwritten, listed. rewrite foldl_app. cbn [foldl].
    destruct (decide (a = p_address e)) as [->|Hne].
    + rewrite decide_True by reflexivity. destruct (p_account e); reflexivity.
    + rewrite decide_False by congruence. rewrite A1. reflexivity.
Qed.
Lemma init_eq H p s c s1 : put_accounts H (g_accounts p) s = (Ok tt, s1) -> forall oob,
  InitAccounts H oob p s c =
  let '(o, s2, c2) := tree_Push H oob s1 c (g_block p) in
  match o with
  | Ok _ => match Hash H s2 with
            | Ok hash => (if bytes_eqb hash (bh_accounts (bl_header (g_block p))) then Ok tt else Err ETreeHash, s2, c2)
            | Err e => (Err e, s2, c2) | Panic => (Panic, s2, c2) | OutOfFuel => (OutOfFuel, s2, c2)
            end
  | o => (o, s2, c2)
  end.
Proof. intros E oob. unfold InitAccounts. rewrite E. reflexivity. Qed.

(** ** C72 *)
(** InitAccounts applies the genesis block to the accounts of the list, and succeeds exactly if
    this succeeds and gives the announced root hash. *)
Theorem C72_init_accounts H oob p s c M :
  hash_fn H -> areach H oob s c -> lists s M -> profile_ok p ->
  exists s1 M1 o1 o s' c',
    areach H oob s1 c /\ lists s1 M1 /\ (forall a, acct M1 a = overwritten M (g_accounts p) a) /\
    tree_Push H oob s1 c (g_block p) = (o1, s', c') /\
    InitAccounts H oob p s c = (o, s', c') /\ areach H oob s' c' /\
    (o = Ok tt <-> o1 = Ok tt /\ Hash H s' = Ok (bh_accounts (bl_header (g_block p)))) /\
    (o1 = Ok tt -> o = Ok tt \/ o = Err ETreeHash) /\ (o1 <> Ok tt -> o = o1).
Proof.
  intros HH Hr HL (Hb & Hl). destruct (put_accounts_ok H oob c _ HH Hl s M Hr HL) as (s1 & M1 & E1 & Hr1 & HL1 & A1).
  destruct (tree_Push H oob s1 c (g_block p)) as ((o1 & s') & c') eqn:E2.
  assert (Hr' : areach H oob s' c') by (eapply areach_push; eassumption).
  destruct (push_ledger H oob s1 c M1 _ _ _ _ HH Hr1 HL1 Hb E2) as (M' & _ & HM' & _).
  pose proof (C18_root_is_merkle_root _ _ _ (proj1 HM')) as EH.
  pose proof (init_eq H p s c s1 E1 oob) as EI. rewrite E2 in EI.
  exists s1, M1, o1.
  destruct o1 as [[]|e| |].
  - rewrite EH in EI. destruct (bytes_eqb (merkle_root H (enc_ledger M')) (bh_accounts (bl_header (g_block p)))) eqn:Eq.
    + apply bytes_eqb_eq in Eq. exists (Ok tt), s', c'. rewrite EH, Eq. split_ands; try tauto; try assumption; congruence.
    + apply bytes_eqb_neq in Eq. exists (Err ETreeHash), s', c'. rewrite EH.
      assert (Hn : Err ETreeHash = Ok tt <-> @Ok unit tt = Ok tt /\ @Ok bytes (merkle_root H (enc_ledger M')) = Ok (bh_accounts (bl_header (g_block p)))).
      { split; [discriminate|]. intros (_ & X). exfalso. apply Eq. congruence. }
      split_ands; auto; try apply Hn; congruence.
  - exists (Err e), s', c'. split_ands; auto; try congruence. split; [discriminate|]. intros (X & _). discriminate X.
  - exists Panic, s', c'. split_ands; auto; try congruence. split; [discriminate|]. intros (X & _). discriminate X.
  - exists OutOfFuel, s', c'. split_ands; auto; try congruence. split; [discriminate|]. intros (X & _). discriminate X.
Qed.
Print Assumptions C72_init_accounts.
(** If it succeeds, the accounts are the ones that the header's root hash commits to. *)
Theorem C72_root_commits H oob p s c s' c' :
  hash_fn H -> areach H oob s c -> profile_ok p -> InitAccounts H oob p s c = (Ok tt, s', c') ->
  exists M', lists s' M' /\ bh_accounts (bl_header (g_block p)) = merkle_root H (enc_ledger M').
Proof.
  intros HH Hr Hp E. destruct (C52_ledger_exists H oob s c HH Hr) as (M & HL & _).
  destruct (C72_init_accounts H oob p s c M HH Hr HL Hp) as (s1 & M1 & o1 & o & s2 & c2 & Hr1 & HL1 & A1 & E2 & E3 & Hr2 & Ho & _).
  rewrite E in E3. injection E3 as <- <- <-. destruct (proj1 Ho eq_refl) as (-> & EH).
  destruct (areach_holds H oob s' c' HH Hr2) as ((M' & HM') & _). exists M'. split; [eapply holds_lists, HM'|].
  rewrite (C18_root_is_merkle_root _ _ _ (proj1 HM')) in EH. congruence.
Qed.
Print Assumptions C72_root_commits.
(** Like the hard-coded profiles: a genesis block without transactions.  Everybody has the listed
    account, the miner (a basic account) in addition the block reward. *)
Theorem C72_empty_genesis_block H oob p s c M body s' c' a :
  hash_fn H -> areach H oob s c -> lists s M -> profile_ok p ->
  bl_body (g_block p) = Some body -> bb_txs body = [] ->
  Balance (overwritten M (g_accounts p) (bb_miner body)) + block_reward_spec (bh_height (bl_header (g_block p))) < 2 ^ 64 ->
  InitAccounts H oob p s c = (Ok tt, s', c') -> array 20 a ->
  let x := overwritten M (g_accounts p) a in
  if decide (a = bb_miner body)
  then is_basic x /\ tree_get_account s' a = Ok (ABasic (Balance x + block_reward_spec (bh_height (bl_header (g_block p)))))
  else tree_get_account s' a = Ok x.
Proof.
  intros HH Hr HL Hp Eb Et Hlt E Ha x.
  destruct (C72_init_accounts H oob p s c M HH Hr HL Hp) as (s1 & M1 & o1 & o & s2 & c2 & Hr1 & HL1 & A1 & E2 & E3 & Hr2 & Ho & _).
  rewrite E in E3. injection E3 as <- <- <-. destruct (proj1 Ho eq_refl) as (-> & _).
  destruct (push_ledger H oob s1 c M1 _ _ _ _ HH Hr1 HL1 (proj1 Hp) E2) as (M' & E' & HM' & HM1 & Hc & _).
  destruct (push_effect H oob HH M1 c _ M' c' HM1 Hc (proj1 Hp) E') as (_ & body' & Eb' & _ & _ & He). rewrite Eb in Eb'. injection Eb' as <-.
  destruct (He a) as (y & z & Hy & Hz & Hm). rewrite (tree_get H s' M' a HM' Ha). unfold x. rewrite <- A1 in Hlt |- *.
  assert (Etx : txs_of body = []) by (unfold txs_of; rewrite Et; reflexivity). rewrite Etx in Hy, Hz, Hm.
  unfold settled in Hy. cbn [last_creation] in Hy. unfold charged, received, sum in Hy. cbn [map foldr] in Hy.
  rewrite Z.sub_0_r, Z.add_0_r, mod_balance, with_same in Hy by (apply acct_ok; exact HM1). subst y.
  destruct Hz as [(((t & Ht & _) & _) & _)|(_ & _ & ->)]; [apply elem_of_nil in Ht; contradiction|].
  destruct (decide (a = bb_miner body)) as [->|]; [|rewrite Hm; reflexivity].
  destruct Hm as (Hb & ->). split; [exact Hb|]. unfold fees, sum. cbn [map foldr]. rewrite Z.add_0_r.
  pose proof (balance_64 _ (acct_ok M1 (bb_miner body) HM1)) as Hu. unfold u64 in Hu. pose proof (block_reward_bound (bh_height (bl_header (g_block p)))).
  rewrite Z.mod_small by lia. reflexivity.
Qed.
Print Assumptions C72_empty_genesis_block.
(** Two initialisations that end with the same announced root hash agree on all accounts, or
    exhibit two different byte strings with the same hash. *)
Theorem C72_same_root_same_accounts H oob p s c s' c' oob2 p2 s2 c2 s2' c2' :
  hash_fn H -> areach H oob s c -> profile_ok p -> InitAccounts H oob p s c = (Ok tt, s', c') ->
  areach H oob2 s2 c2 -> profile_ok p2 -> InitAccounts H oob2 p2 s2 c2 = (Ok tt, s2', c2') ->
  bh_accounts (bl_header (g_block p)) = bh_accounts (bl_header (g_block p2)) ->
  (forall a, array 20 a -> tree_get_account s' a = tree_get_account s2' a) \/ (exists x y, x <> y /\ H x = H y).
Proof.
  intros HH Hr Hp E Hr2 Hp2 E2 Er.
  assert (G : forall oob p s c s' c', areach H oob s c -> profile_ok p -> InitAccounts H oob p s c = (Ok tt, s', c') ->
    exists M', tree_holds H s' M' /\ Hash H s' = Ok (bh_accounts (bl_header (g_block p)))).
  { clear - HH. intros oob p s c s' c' Hr Hp E. destruct (C52_ledger_exists H oob s c HH Hr) as (M & HL & _).
    destruct (C72_init_accounts H oob p s c M HH Hr HL Hp) as (s1 & M1 & o1 & o & s2 & c2 & Hr1 & HL1 & A1 & E2 & E3 & Hr2 & Ho & _).
    rewrite E in E3. injection E3 as <- <- <-. destruct (proj1 Ho eq_refl) as (-> & EH).
    destruct (areach_holds H oob s' c' HH Hr2) as ((M' & HM') & _). eauto. }
  destruct (G _ _ _ _ _ _ Hr Hp E) as (M1 & HM1 & E1). destruct (G _ _ _ _ _ _ Hr2 Hp2 E2) as (M2 & HM2 & E2').
  destruct (C19_equal_roots_equal_contents H (fun x => proj1 (HH x)) s' _ s2' _ (proj1 HM1) (proj1 HM2)) as [Hs|(p1 & p2' & _ & _ & Hne & Heq)].
  - rewrite E1, E2'. congruence.
  - left. intros a Ha. unfold tree_get_account, GetAccount. rewrite (Hs a Ha). reflexivity.
  - right. eauto.
Qed.
Print Assumptions C72_same_root_same_accounts.

(** ** Reading a profile *)
Lemma full_block buf v : bytes_ok buf -> UnmarshalFull buf (APtr ty_block (zero ty_block)) = Ok (Some v) ->
  decode_block buf = Ok (Wire.block_of v, zlen buf).
Proof.
  intros Hb E. pose proof (C77_accepted_blocks buf Hb) as Hd. unfold UnmarshalFull in E. unfold decode_block in *.
  destruct (Unmarshal buf (APtr ty_block (zero ty_block))) as (r & n). destruct r as [o|e| |]; cbn [bind] in *; try discriminate E.
  destruct (Z.ltb_spec n (zlen buf)); [discriminate E|]. injection E as ->.
  destruct Hd as [(e & Hd)|[(Hd & _)|(blk & m & bs & ds & Hd & _ & _ & _ & _ & _ & Hn)]]; try discriminate Hd. injection Hd as _ ->. do 2 f_equal. lia.
Qed.
Lemma block_full buf b : decode_block buf = Ok (b, zlen buf) ->
  exists v, UnmarshalFull buf (APtr ty_block (zero ty_block)) = Ok (Some v) /\ Wire.block_of v = b.
Proof.
  unfold decode_block, UnmarshalFull. destruct (Unmarshal buf (APtr ty_block (zero ty_block))) as (r & n).
  destruct r as [[v|]|e| |]; cbn [bind]; try discriminate. intros E. injection E as <- ->. rewrite Z.ltb_irrefl. eauto.
Qed.
Lemma full_block_cases buf : bytes_ok buf ->
  let r := UnmarshalFull buf (APtr ty_block (zero ty_block)) in
  (exists e, r = Err e) \/ (r = Panic /\ exists x, nth_error buf 146 = Some x /\ 249 <= x) \/
  (exists v, r = Ok (Some v) /\ decode_block buf = Ok (Wire.block_of v, zlen buf)).
Proof.
  intros Hb r. destruct r as [o|e| |] eqn:E; unfold r in E; [right; right|left; eauto|right; left|exfalso].
  - pose proof (block_unm (zero ty_block) buf Hb) as Hun. pose proof E as E'. unfold UnmarshalFull in E. destruct (Unmarshal buf (APtr ty_block (zero ty_block))) as (r' & n).
    destruct r' as [o'|e| |]; cbn [bind] in E; try discriminate E. destruct (n <? zlen buf); [discriminate E|]. injection E as ->.
    destruct Hun as ((blk & -> & _) & _). eexists. split; [reflexivity|]. apply full_block; [exact Hb|exact E'].
  - pose proof (block_unm (zero ty_block) buf Hb) as Hun. unfold UnmarshalFull in E. destruct (Unmarshal buf (APtr ty_block (zero ty_block))) as (r' & n).
    destruct r' as [o'|e| |]; cbn [bind] in E; try discriminate E; [destruct (n <? zlen buf); discriminate E|]. split; [reflexivity|apply Hun].
  - pose proof (block_unm (zero ty_block) buf Hb) as Hun. unfold UnmarshalFull in E. destruct (Unmarshal buf (APtr ty_block (zero ty_block))) as (r' & n).
    destruct r' as [o'|e| |]; cbn [bind] in E; try discriminate E; [destruct (n <? zlen buf); discriminate E|]. apply Hun.
Qed.
Lemma decoded_block_ok buf b n : bytes_ok buf -> decode_block buf = Ok (b, n) -> block_ok b.
Proof.
  intros Hb E. destruct (C77_accepted_blocks buf Hb) as [(e & Hd)|[(Hd & _)|(blk & m & bs & ds & Hd & H1 & _ & H2 & _)]]; rewrite Hd in E; try discriminate E.
  injection E as <- <-. split; assumption.
Qed.
Lemma declared_accounts (P : codec -> Prop) : P wrap_account_codec -> well_declared P ty_accounts_list.
Proof. intros H1. cbn [well_declared ty_accounts_list ty_genesis_account tagged field bytesN ty_wrap_account]. declare. Qed.
Lemma accounts_occupy : slices_occupy ty_accounts_list.
Proof. cbn. tauto. Qed.
Definition v_accounts (l : list GenesisAccount) : val := VStruct [VList (map v_pruned l)].
Lemma accounts_layout l : Forall pruned_ok l -> zlen l < 2 ^ 16 -> enc ty_accounts_list no_tags (v_accounts l) (accounts_bytes l).
Proof.
  intros Hl Hn. apply enc_struct. enc_fields_tac. apply (enc_slice_of ty_pruned v_pruned pruned_bytes U16); try reflexivity; cbn [width]; try lia.
  - intros Hd. discriminate Hd.
  - eapply Forall_impl; [exact Hl|]. intros p Hp. split; [|apply pruned_layout; exact Hp].
    destruct Hp as ((Hp & _) & _). unfold pruned_bytes. destruct (p_address p); [discriminate Hp|discriminate].
Qed.
Lemma accounts_of_v l : map pruned_of (list_of (fld 0 (v_accounts l))) = l.
Proof. unfold v_accounts. cbn [fld list_of nth]. induction l as [|p l IH]; [reflexivity|]. cbn [map]. rewrite pruned_of_v. f_equal. exact IH. Qed.
Lemma decoded_accounts v : decoded wire_decodes ty_accounts_list no_tags v ->
  let l := map pruned_of (list_of (fld 0 v)) in v = v_accounts l /\ Forall pruned_ok l /\ zlen l < 2 ^ 16.
Proof.
  intros Hv. destruct v as [| | | | |vs| |]; try contradiction.
  change (all_dec wire_decodes [tagged "len_tag=uint16" (TSlice ty_pruned)] vs) in Hv.
  destruct vs as [|a [|]]; cbn [all_dec tagged] in Hv; try tauto. destruct Hv as ((t1 & T1 & Ha) & _).
  assert (t1 = Tags (Some U16) false) as -> by (cbv in T1; congruence).
  destruct (decoded_slice _ _ _ v_pruned pruned_of pruned_ok _ decoded_pruned Ha) as (Ea & Oa & La).
  cbv zeta. cbn [fld nth]. split; [|split; assumption]. unfold v_accounts. rewrite <- Ea. reflexivity.
Qed.
(** A profile's files are read back: the block, and exactly the listed accounts. *)
Theorem C72_profile_decodes h bs distinct body l :
  header_ok h -> interlink_fits bs distinct -> (forall b, body = Some b -> body_ok b) ->
  Forall pruned_ok l -> zlen l < 2 ^ 16 ->
  exists p, openProfile (block_bytes h bs distinct body) (accounts_bytes l) = Ok p /\
    bl_header (g_block p) = h /\ bl_body (g_block p) = body /\ g_accounts p = l.
Proof.
  intros Hh Hi Hb Hl Hn.
  destruct (C77_network_block_decodes h bs distinct body [] Hh Hi Hb ltac:(constructor)) as (blk & E & E1 & E2 & _). rewrite app_nil_r in E.
  destruct (block_full _ _ E) as (v & Ev & Eb). destruct (enc_marshal _ _ _ (accounts_layout l Hl Hn)) as (_ & Hu).
  specialize (Hu (zero ty_accounts_list) []). rewrite app_nil_r in Hu.
  unfold openProfile. rewrite Ev. cbn [bind]. unfold UnmarshalFull. rewrite Hu. cbn [bind]. rewrite Z.ltb_irrefl. cbn [bind].
  eexists. split; [reflexivity|]. cbn [g_block g_accounts]. rewrite Eb, accounts_of_v. auto.
Qed.
Print Assumptions C72_profile_decodes.
(** Whatever the files contain: an error, a panic (only for an interlink of 249 or more entries), or a
    well-formed profile, of which the files are the encoding. *)
Theorem C72_profile_accepted blockBuf accountsBuf :
  bytes_ok blockBuf -> bytes_ok accountsBuf ->
  (exists e, openProfile blockBuf accountsBuf = Err e) \/
  (openProfile blockBuf accountsBuf = Panic /\ exists x, nth_error blockBuf 146 = Some x /\ 249 <= x) \/
  (exists p bs distinct, openProfile blockBuf accountsBuf = Ok p /\ profile_ok p /\
     Forall pruned_ok (g_accounts p) /\ interlink_fits bs distinct /\
     blockBuf = block_bytes (bl_header (g_block p)) bs distinct (bl_body (g_block p)) /\
     accountsBuf = accounts_bytes (g_accounts p)).
Proof.
  intros Hb Ha. unfold openProfile. destruct (full_block_cases blockBuf Hb) as [(e & E)|[(E & Hx)|(v & E & Ed)]]; rewrite E; cbn [bind]; [eauto|eauto|].
  pose proof (C28_unmarshal_total ty_accounts_list (zero ty_accounts_list) accountsBuf (declared_accounts _ wrap_account_safe) Ha) as (r & n & Eu & Hn & Hr & Hf & Hp).
  destruct (UnmarshalFull accountsBuf (APtr ty_accounts_list (zero ty_accounts_list))) as [w|e| |] eqn:Ew; cbn [bind]; [|eauto|congruence|].
  2: { exfalso. unfold UnmarshalFull in Ew. rewrite Eu in Ew. destruct Hr as [(v' & ->)|(e & ->)]; cbn [bind] in Ew; [destruct (n <? zlen accountsBuf)|]; discriminate. }
  destruct (proj1 (Hf w) eq_refl) as (-> & ->). destruct Hr as [(w' & [= ->])|(e & X)]; [|discriminate X].
  right; right. pose proof Eu as Eu'. unfold Unmarshal in Eu'. destruct (value ty_accounts_list no_tags (zero ty_accounts_list) (DState accountsBuf [])) as (r & s1) eqn:Ev.
  destruct r as [v1|e| |]; cbn [bind] in Eu'; try discriminate Eu'. injection Eu' as -> _.
  assert (Ht : tags_unsigned no_tags) by (intros k Hk; discriminate Hk).
  pose proof (value_decoded wire_decodes ty_accounts_list (declared_accounts _ wire_decodes_account) accounts_occupy _ _ _ _ _ Ht (Ha : bytes_ok (data (DState accountsBuf []))) Ev) as Hdec.
  destruct (decoded_accounts w' Hdec) as (Ev' & Ho & Hl). set (l := map pruned_of (list_of (fld 0 w'))) in *.
  destruct (C77_accepted_blocks blockBuf Hb) as [(e & Hd)|[(Hd & _)|(blk & m & bs & ds & Hd & H1 & H2 & H3 & _ & H4 & _)]]; rewrite Ed in Hd; try discriminate Hd.
  injection Hd as <- <-. exists (MkProfile (Wire.block_of v) l), bs, ds. cbn [g_block g_accounts].
  split; [reflexivity|]. split.
  { split; [split; assumption|]. cbn [g_accounts]. eapply Forall_impl; [exact Ho|]. intros p (Hpa & x & Ex & Hx). split; [exact Hpa|]. intros y Ey. congruence. }
  split; [exact Ho|]. split; [exact H2|]. split.
  - rewrite H4. unfold zlen. rewrite Nat2Z.id, firstn_all. reflexivity.
  - pose proof (C30_canonical ty_accounts_list _ _ _ _ (declared_accounts _ wrap_account_canonical) Ha Eu []) as Hc.
    destruct (enc_marshal _ _ _ (accounts_layout l Ho Hl)) as (Hm & _). specialize (Hm []). rewrite <- Ev', Hc in Hm. injection Hm as Hm.
    unfold zlen in Hm. rewrite Nat2Z.id, firstn_all in Hm. exact Hm.
Qed.
Print Assumptions C72_profile_accepted.

(** ** C73 *)
Definition file_ok (e : entry) : Prop := match e with File buf => bytes_ok buf | Broken => True end.
Lemma replay_loop_spec H oob archive : hash_fn H -> Forall file_ok archive -> forall s c b t n k s' c', areach H oob s c ->
  (replay_loop H oob archive s c b t = (Ok (n, k), s', c') <->
   exists bs, replayed H oob s c archive bs s' c' /\ n = b + zlen bs /\ k = t + sum (map tx_count bs)).
Proof.
  intros HH Ha. induction Ha as [|e archive He Ha IH]; intros s c b t n k s' c' Hr; cbn [replay_loop].
  - split.
    + intros E. injection E as <- <- <- <-. exists []. split; [constructor|]. unfold zlen, sum. cbn. lia.
    + intros (bs & Hp & -> & ->). inversion Hp; subst. unfold zlen, sum. cbn. rewrite !Z.add_0_r. reflexivity.
  - destruct e as [buf|].
    2: { split; [discriminate|]. intros (bs & Hp & _). inversion Hp. }
    destruct (full_block_cases buf He) as [(e & E)|[(E & _)|(v & E & Ed)]]; rewrite E.
    + split; [discriminate|]. intros (bs & Hp & _). inversion Hp as [|? ? ? ? blk body ? s1 c1 ? ? Hd Hbody Hpush Hhash Hrest]; subst.
      destruct (block_full _ _ Hd) as (v & Ev & _). congruence.
    + split; [discriminate|]. intros (bs & Hp & _). inversion Hp as [|? ? ? ? blk body ? s1 c1 ? ? Hd Hbody Hpush Hhash Hrest]; subst.
      destruct (block_full _ _ Hd) as (v & Ev & _). congruence.
    + set (blk := Wire.block_of v) in *. pose proof (decoded_block_ok _ _ _ He Ed) as Hbok. cbv zeta.
      destruct (tree_Push H oob s c blk) as ((o & s1) & c1) eqn:Ep.
      assert (Hr1 : areach H oob s1 c1) by (eapply areach_push; eassumption).
      destruct (areach_holds H oob s1 c1 HH Hr1) as ((M1 & HM1) & _). pose proof (C18_root_is_merkle_root _ _ _ (proj1 HM1)) as EH.
      assert (Inv : forall bs, replayed H oob s c (File buf :: archive) bs s' c' ->
        exists body bs', bs = blk :: bs' /\ bl_body blk = Some body /\ o = Ok tt /\ Hash H s1 = Ok (bh_accounts (bl_header blk)) /\ replayed H oob s1 c1 archive bs' s' c').
      { intros bs Hp. inversion Hp as [|? ? ? ? blk' body ? s2 c2 ? ? Hd Hbody Hpush Hhash Hrest]; subst.
        rewrite Ed in Hd. injection Hd as <-. rewrite Ep in Hpush. injection Hpush as -> -> ->. eauto 10. }
      destruct o as [[]|e| |]; [|split; [discriminate|]; intros (bs & Hp & _); destruct (Inv _ Hp) as (? & ? & _ & _ & Ho & _); discriminate Ho..].
      rewrite EH. destruct (bytes_eqb (bh_accounts (bl_header blk)) (merkle_root H (enc_ledger M1))) eqn:Eq; cbn [negb].
      2: { split; [discriminate|]. intros (bs & Hp & _). destruct (Inv _ Hp) as (? & ? & _ & _ & _ & Hh & _). apply bytes_eqb_neq in Eq. congruence. }
      apply bytes_eqb_eq in Eq. destruct (bl_body blk) as [body|] eqn:Ebody.
      2: { split; [discriminate|]. intros (bs & Hp & _). destruct (Inv _ Hp) as (? & ? & _ & Hbo & _). congruence. }
      rewrite (IH _ _ _ _ _ _ _ _ Hr1). split.
      * intros (bs & Hp & -> & ->). exists (blk :: bs). split; [eapply replayed_cons; try eassumption; congruence|].
        unfold zlen, sum. cbn [List.length map foldr]. unfold tx_count at 2. rewrite Ebody. unfold zlen. lia.
      * intros (bs & Hp & -> & ->). destruct (Inv _ Hp) as (body' & bs' & -> & _ & _ & _ & Hp'). exists bs'. split; [exact Hp'|].
        unfold zlen, sum. cbn [List.length map foldr]. unfold tx_count at 1. rewrite Ebody. unfold zlen. lia.
Qed.
(** The replay finishes normally exactly if every entry after the first is a block that is accepted and
    leads to the state its header announces; it reports the numbers of blocks and transactions. *)
Theorem C73_replay H oob archive s c n k s' c' :
  hash_fn H -> areach H oob s c -> Forall file_ok archive ->
  (replay H oob archive s c = (Ok (n, k), s', c') <->
   exists bs, replayed H oob s c (tl archive) bs s' c' /\ n = zlen bs /\ k = sum (map tx_count bs)).
Proof.
  intros HH Hr Ha. unfold replay. replace (skipn 1 archive) with (tl archive) by (destruct archive; reflexivity).
  rewrite (replay_loop_spec H oob (tl archive) HH); [|destruct Ha; [constructor|assumption]|exact Hr].
  split; intros (bs & Hp & -> & ->); exists bs; (split; [exact Hp|lia]).
Qed.
Print Assumptions C73_replay.
(** It never stops in another way than by reporting or panicking. *)
Theorem C73_reports_or_panics H oob archive s c :
  hash_fn H -> areach H oob s c -> Forall file_ok archive ->
  exists r s' c', replay H oob archive s c = (r, s', c') /\ (r = Panic \/ exists n k, r = Ok (n, k)) /\ areach H oob s' c'.
Proof.
  intros HH Hr Ha. unfold replay.
  assert (Ha' : Forall file_ok (skipn 1 archive)) by (destruct Ha; [constructor|assumption]). revert Ha'.
  assert (G : forall l, Forall file_ok l -> forall s c b t, areach H oob s c -> exists r s' c', replay_loop H oob l s c b t = (r, s', c') /\ (r = Panic \/ exists n k, r = Ok (n, k)) /\ areach H oob s' c'); [|intros Hl; apply G; assumption].
  clear s c Hr archive Ha. intros l Hl.
  induction Hl as [|e l He Hl IH]; intros s c b t Hr; cbn [replay_loop]; [eauto 10|].
  destruct e as [buf|]; [|eauto 10].
  destruct (full_block_cases buf He) as [(e & E)|[(E & _)|(v & E & Ed)]]; rewrite E; [eauto 10..|].
  pose proof (decoded_block_ok _ _ _ He Ed) as Hbok. cbv zeta. destruct (tree_Push H oob s c (Wire.block_of v)) as ((o & s1) & c1) eqn:Ep.
  assert (Hr1 : areach H oob s1 c1) by (eapply areach_push; eassumption).
  destruct (areach_holds H oob s1 c1 HH Hr1) as ((M1 & HM1) & _). pose proof (C18_root_is_merkle_root _ _ _ (proj1 HM1)) as EH.
  destruct o as [[]|e| |]; [|eauto 10|eauto 10|].
  - rewrite EH. destruct (negb _); [eauto 10|]. destruct (bl_body (Wire.block_of v)) as [body|]; [|eauto 10]. apply IH. exact Hr1.
  - exfalso. destruct (C52_ledger_exists H oob s c HH Hr) as (M & HL & _). destruct (C66_panics_partial H oob s c M _ _ _ _ HH Hr HL Hbok Ep) as (X & _). congruence.
Qed.
Print Assumptions C73_reports_or_panics.
(** The whole program, from the profile's two files and the archive. *)
Theorem C73_program H oob blockBuf accountsBuf archive n k s' c' :
  hash_fn H -> bytes_ok blockBuf -> bytes_ok accountsBuf -> Forall file_ok archive ->
  (gimiq H oob blockBuf accountsBuf archive = (Ok (n, k), s', c') <->
   exists p s c bs, openProfile blockBuf accountsBuf = Ok p /\ InitAccounts H oob p new_tree initial_cache = (Ok tt, s, c) /\
     replayed H oob s c (tl archive) bs s' c' /\ n = zlen bs /\ k = sum (map tx_count bs)).
Proof.
  intros HH Hb Ha Hf. unfold gimiq. pose proof (areach_new H oob) as Hr.
  destruct (C72_profile_accepted blockBuf accountsBuf Hb Ha) as [(e & E)|[(E & _)|(p & bs & ds & E & Hp & _)]]; rewrite E.
  1, 2: split; [discriminate|]; intros (p' & ? & ? & ? & X & _); discriminate X.
  destruct (InitAccounts H oob p new_tree initial_cache) as ((o & s) & c) eqn:Ei.
  destruct (C52_ledger_exists H oob _ _ HH Hr) as (M & HL & _).
  destruct (C72_init_accounts H oob p _ _ M HH Hr HL Hp) as (s1 & M1 & o1 & o' & s2 & c2 & _ & _ & _ & _ & E3 & Hr2 & _).
  rewrite Ei in E3. injection E3 as <- <- <-.
  destruct o as [[]|e| |]; [|split; [discriminate|]; intros (p' & ? & ? & ? & X & X2 & _); injection X as <-; rewrite Ei in X2; discriminate X2..].
  rewrite (C73_replay H oob archive s c n k s' c' HH Hr2 Hf). split.
  - intros (l & Hl). exists p, s, c, l. tauto.
  - intros (p' & s3 & c3 & l & X & X2 & X3). injection X as <-. rewrite Ei in X2. injection X2 as <- <-. eauto.
Qed.
Print Assumptions C73_program.
(** After a replay, every block's announced root is the root of the accounts at that point: the last
    block's header commits to the final accounts. *)
Theorem C73_final_state H oob s c archive bs b s' c' :
  hash_fn H -> areach H oob s c -> Forall file_ok archive -> replayed H oob s c archive (bs ++ [b]) s' c' ->
  areach H oob s' c' /\ Hash H s' = Ok (bh_accounts (bl_header b)) /\
  exists M, lists s' M /\ bh_accounts (bl_header b) = merkle_root H (enc_ledger M).
Proof.
  intros HH Hr Hf Hp. revert archive s c Hr Hf Hp. induction bs as [|b' bs IH]; intros archive s c Hr Hf Hp; cbn [app] in Hp;
    inversion Hp as [|? ? buf ? ? body ? s1 c1 ? ? Hd Hbody Hpush Hhash Hrest]; subst; inversion Hf as [|? ? He Hf']; subst;
    (assert (Hr1 : areach H oob s1 c1) by (eapply areach_push; [exact Hr|eapply decoded_block_ok; [exact He|exact Hd]|exact Hpush])).
  - inversion Hrest; subst. split; [exact Hr1|]. split; [exact Hhash|].
    destruct (areach_holds H oob s' c' HH Hr1) as ((M & HM) & _). exists M. split; [eapply holds_lists, HM|].
    rewrite (C18_root_is_merkle_root _ _ _ (proj1 HM)) in Hhash. congruence.
  - exact (IH _ _ _ Hr1 Hf' Hrest).
Qed.
Print Assumptions C73_final_state.

Lemma opened_ok a b p : bytes_ok a -> bytes_ok b -> openProfile a b = Ok p -> profile_ok p.
Proof.
  intros Ha Hb E. destruct (C72_profile_accepted _ _ Ha Hb) as [(e & X)|[(X & _)|(p' & bs & ds & X & Hp & _)]]; rewrite E in X; try discriminate X.
  injection X as ->. exact Hp.
Qed.
(** ** Examples: a profile with six entries (one address twice), one block with three transfers *)
Definition small_list : list GenesisAccount := map (fun p => MkPruned p.1 (Some p.2)) (small_accounts ++ [(addr 2, ABasic 60)]).
Definition small_header (root height : Z) : BlockHeader :=
  MkHeader 1 (repeat 0 32) (repeat 0 32) (repeat 0 32) (repeat root 32) 0 height 0 0.
Definition small_file (root height : Z) (txs : list Tx) : bytes :=
  block_bytes (small_header root height) (MkBitSet 0 []) [] (Some (body_of (addr 4) txs [])).
Definition small_profile : Profile :=
  match openProfile (small_file 100 1 []) (accounts_bytes small_list) with Ok p => p | _ => MkProfile (transfer_block []) [] end.
Example C72_example oob :
  openProfile (small_file 100 1 []) (accounts_bytes small_list) = Ok small_profile /\ profile_ok small_profile /\
  areach toy_hash oob new_tree initial_cache /\ lists new_tree ∅ /\
  (let '(o, s, _) := InitAccounts toy_hash oob small_profile new_tree initial_cache in
   o = Ok tt /\ map (tree_get_account s) [addr 1; addr 2; addr 3; addr 4] = [Ok (ABasic 1000); Ok (ABasic 60); Ok (ABasic 0); Ok (ABasic 440597534)]) /\
  (let '(o, _, _) := InitAccounts toy_hash oob (MkProfile (AccountsProps.block_of 1 (body_of (addr 4) [] [])) small_list) new_tree initial_cache in o = Err ETreeHash).
Proof.
  assert (Hb : bytes_ok (small_file 100 1 []) /\ bytes_ok (accounts_bytes small_list)) by (split; apply bytes_okb_spec; vm_compute; reflexivity).
  assert (E : openProfile (small_file 100 1 []) (accounts_bytes small_list) = Ok small_profile) by (vm_compute; reflexivity).
  split; [exact E|]. split; [exact (opened_ok _ _ _ (proj1 Hb) (proj2 Hb) E)|].
  split; [constructor|]. split.
  { apply (holds_lists toy_hash). split; [|apply ledger_ok_empty]. unfold enc_ledger. rewrite fmap_empty. constructor. }
  split; vm_compute; [split; reflexivity|reflexivity].
Qed.
Example C73_example :
  let archive := [Broken; File (small_file 161 2 transfers)] in
  Forall file_ok archive /\
  (let '(o, s, _) := gimiq toy_hash (fun _ => 0) (small_file 100 1 []) (accounts_bytes small_list) archive in
   o = Ok (1, 3) /\ map (tree_get_account s) [addr 1; addr 2; addr 3] = [Ok (ABasic 888); Ok (ABasic 129); Ok (ABasic 30)]) /\
  (let '(o, _, _) := gimiq toy_hash (fun _ => 0) (small_file 100 1 []) (accounts_bytes small_list) [Broken; File (small_file 162 2 transfers)] in
   o = Panic).
Proof.
  cbv zeta. split.
  - constructor; [exact I|]. constructor; [|constructor]. apply bytes_okb_spec. vm_compute. reflexivity.
  - split; vm_compute; [split; reflexivity|reflexivity].
Qed.

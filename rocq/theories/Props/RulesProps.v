(** Properties C79-C85: which blocks Push accepts, and what it does not look at. *)
From Coq Require Import ZArith List Lia Bool.
From stdpp Require Import gmap list.
From Verif.Model Require Import Base Address Beserial Wire Policy Account Tree Accounts Genesis.
From Verif.Spec Require Import AddressSpec TreeSpec TreeHistory PolicySpec BeserialSpec WireSpec AccountSpec AccountsSpec PushSpec RulesSpec GenesisSpec.
From Verif.Spec Require WalletSpec.
From Verif.Proofs Require Import BaseFacts PolicyFacts AccountFacts LedgerFacts PushFacts AccountsFacts TransferFacts PushCong RulesFacts.
From Verif.Props Require Import TreeProps WireProps AccountProps AccountsProps GenesisProps.
Open Scope Z_scope.

(** ** C79 *)
Theorem C79_accepts H oob s c M b body o s' c' :
  hash_fn H -> areach H oob s c -> lists s M -> block_ok b -> bl_body b = Some body ->
  tree_Push H oob s c b = (o, s', c') ->
  (o = Ok tt <-> acceptable H oob M (bh_height (bl_header b)) body).
Proof.
  intros HH Hr HL Hb Eb E. destruct (push_ledger H oob s c M b o s' c' HH Hr HL Hb E) as (M' & E' & HM' & HM & Hc & _).
  rewrite <- (push_iff H oob HH M c b body HM Hc Hb Eb). change (Push H oob ledger L_get L_put M c b) with (ledger_Push H oob M c b). rewrite E'.
  split; [intros ->; eauto|]. intros (M2 & c2 & X). congruence.
Qed.
Print Assumptions C79_accepts.
(** The accounts afterwards: settled, emptied contracts removed, the miner rewarded. *)
Theorem C79_effect H oob s c M b body s' c' a :
  hash_fn H -> areach H oob s c -> lists s M -> block_ok b -> bl_body b = Some body ->
  tree_Push H oob s c b = (Ok tt, s', c') -> array 20 a ->
  exists x y z, settled H M (txs_of body) a x /\
    (to_prune H (txs_of body) a x /\ y = ABasic 0 \/ ~ to_prune H (txs_of body) a x /\ y = x) /\
    tree_get_account s' a = Ok z /\
    if decide (a = bb_miner body) then
      is_basic y /\ z = ABasic ((Balance y + block_reward_spec (bh_height (bl_header b)) + fees (txs_of body)) mod 2 ^ 64)
    else z = y.
Proof.
  intros HH Hr HL Hb Eb E Ha. destruct (push_ledger H oob s c M b _ s' c' HH Hr HL Hb E) as (M' & E' & HM' & HM & Hc & _).
  destruct (push_effect H oob HH M c b M' c' HM Hc Hb E') as (_ & body' & Eb' & _ & _ & He). rewrite Eb in Eb'. injection Eb' as <-.
  destruct (He a) as (x & y & H1 & H2 & H3). exists x, y, (acct M' a). split; [exact H1|]. split; [tauto|].
  split; [apply (tree_get H s' M' a HM' Ha)|exact H3].
Qed.
Print Assumptions C79_effect.
(** What the transactions settle to is determined. *)
Theorem C79_settled_unique H M l a x y : settled H M l a x -> settled H M l a y -> x = y.
Proof. apply settled_unique. Qed.
Print Assumptions C79_settled_unique.
(** The state of the examples: a block with a claim of the HTLC and a transfer is accepted; with the contract as
    miner, or with the contract on the prune list, or with too large a claim it is not. *)
Example C79_example oob :
  let txs := [claim 200 0; pay 1 (addr 2) 100 5] in
  let M := ledger_of small_accounts in
  areach toy_hash oob (state_of small_accounts) initial_cache /\ lists (state_of small_accounts) M /\ block_ok (transfer_block txs) /\
  acceptable toy_hash oob M 1 (body_of (addr 4) txs []) /\
  ~ acceptable toy_hash oob M 1 (body_of contract_addr txs []) /\
  ~ acceptable toy_hash oob M 1 (body_of (addr 4) txs [MkPruned contract_addr (Some (acct M contract_addr))]) /\
  ~ acceptable toy_hash oob M 1 (body_of (addr 4) [claim 501 0] []).
Proof.
  cbv zeta. destruct (state_of_ok oob small_accounts small_accounts_ok) as (Hr & HL).
  assert (Htx : forall v, u64 v -> Forall tx_ok [claim v 0; pay 1 (addr 2) 100 5]).
  { intros v Hv. constructor; [apply claim_ok; [exact Hv|unfold u64; lia]|]. constructor; [|constructor]. apply pay_ok; [lia|apply addr_ok|unfold u64; lia|unfold u64; lia]. }
  assert (Hca : array 20 contract_addr) by (apply array_repeat; lia).
  assert (Hmk : forall body, body_ok body -> block_ok (AccountsProps.block_of 1 body)) by (intros body Hy; apply block_of_ok; [unfold PolicySpec.u32, WireSpec.u32; lia|exact Hy]).
  assert (Hfst : forall body, body_ok body ->
    fst (fst (tree_Push toy_hash oob (state_of small_accounts) initial_cache (AccountsProps.block_of 1 body))) = Ok tt <->
    acceptable toy_hash oob (ledger_of small_accounts) 1 body).
  { intros body Hy. destruct (tree_Push toy_hash oob (state_of small_accounts) initial_cache (AccountsProps.block_of 1 body)) as ((o & s') & c') eqn:E. cbn [fst].
    exact (C79_accepts toy_hash oob _ _ _ (AccountsProps.block_of 1 body) body o s' c' toy_hash_fn Hr HL (Hmk body Hy) eq_refl E). }
  split; [exact Hr|]. split; [exact HL|]. split; [apply transfer_block_ok; [apply Htx; unfold u64; lia|reflexivity]|].
  split; [|split; [|split]].
  - apply Hfst; [|vm_compute; reflexivity]. apply body_of_ok; [apply addr_ok|apply Htx; unfold u64; lia|reflexivity|constructor|reflexivity].
  - rewrite <- Hfst; [vm_compute; discriminate|]. apply body_of_ok; [exact Hca|apply Htx; unfold u64; lia|reflexivity|constructor|reflexivity].
  - rewrite <- Hfst; [vm_compute; discriminate|]. apply body_of_ok; [apply addr_ok|apply Htx; unfold u64; lia|reflexivity| |reflexivity].
    constructor; [|constructor]. split; [exact Hca|]. eexists. split; [reflexivity|]. apply acct_ok, HL.
  - rewrite <- Hfst; [vm_compute; discriminate|]. apply body_of_ok; [apply addr_ok| |reflexivity|constructor|reflexivity].
    constructor; [apply claim_ok; unfold u64; lia|constructor].
Qed.

(** ** C80 *)
(** The announced types are those of the accounts, unless 255 is announced. *)
Theorem C80_types_partial H oob s c M b body s' c' t :
  hash_fn H -> areach H oob s c -> lists s M -> block_ok b -> bl_body b = Some body ->
  tree_Push H oob s c b = (Ok tt, s', c') -> t ∈ txs_of body ->
  (tx_sender_type t <> 255 -> tx_sender_type t = AccountType (acct M (tx_sender H t))) /\
  AccountType (acct M (tx_recipient t)) = 0 /\
  (tx_creates t = false -> tx_recipient_type t <> 255 -> tx_recipient_type t = 0) /\
  (tx_creates t = true -> tx_recipient_type t = 1 \/ tx_recipient_type t = 2).
Proof.
  intros HH Hr HL Hb Eb E Ht. apply (C79_accepts H oob s c M b body _ s' c' HH Hr HL Hb Eb) in E as E'. destruct (proj1 E' eq_refl) as [_ R1 R2 R3 _ _].
  pose proof Ht as Hsplit. apply elem_of_list_split in Hsplit as (l1 & l2 & El). destruct (R1 l1 t l2 El) as (T1 & _). destruct (R2 t Ht) as (B & T2).
  split; [tauto|]. split; [apply basic_type; exact B|]. split.
  - intros Hc Hn. rewrite Hc in T2. destruct T2 as [T2|[T2|T2]]; [discriminate T2|exact T2|contradiction].
  - intros Hc. destruct t as [|y]; [discriminate Hc|]. cbn [tx_recipient_type]. destruct (R3 y Ht Hc) as (bal & x & [(-> & _)|(-> & _)]); auto.
Qed.
Print Assumptions C80_types_partial.
(** The property is false of the code: with 255 any account is accepted as sender. *)
Definition unknown_sender (t : Tx) : Tx :=
  match t with
  | TBasic b => TBasic b
  | TExtended x => TExtended (MkExtendedTx (x_data x) (x_sender x) 255 (x_recipient x) (x_recipient_type x) (x_value x) (x_fee x) (x_height x) (x_network x) (x_flags x) (x_proof x))
  end.
Theorem C80_unknown_type_refuted H oob s c M b body o s' c' b' body' o' s2 c2 :
  hash_fn H -> areach H oob s c -> lists s M -> block_ok b -> bl_body b = Some body ->
  block_ok b' -> bl_body b' = Some body' -> bh_height (bl_header b') = bh_height (bl_header b) ->
  txs_of body' = map unknown_sender (txs_of body) -> bb_miner body' = bb_miner body -> bb_pruned body' = bb_pruned body ->
  tree_Push H oob s c b = (o, s', c') -> tree_Push H oob s c b' = (o', s2, c2) ->
  o = Ok tt -> o' = Ok tt.
Proof.
  intros HH Hr HL Hb Eb Hb' Eb' Hh Et Em Ep E E' Ho.
  apply (C79_accepts H oob s c M b' body' o' s2 c2 HH Hr HL Hb' Eb' E').
  apply (C79_accepts H oob s c M b body o s' c' HH Hr HL Hb Eb E) in Ho as [R0 R1 R2 R3 R4 R5]. rewrite Hh.
  assert (Us : forall t, tx_sender H (unknown_sender t) = tx_sender H t) by (intros []; reflexivity).
  assert (Ur : forall t, tx_recipient (unknown_sender t) = tx_recipient t) by (intros []; reflexivity).
  assert (Uv : forall t, tx_value (unknown_sender t) = tx_value t) by (intros []; reflexivity).
  assert (Uc : forall x t, charge x (unknown_sender t) = charge x t) by (intros [] []; reflexivity).
  assert (Ech : forall l x a, charged H (map unknown_sender l) x a = charged H l x a).
  { intros l x a. unfold charged. rewrite map_map. f_equal. apply map_ext. intros t. rewrite Us, Uc. reflexivity. }
  assert (Ere : forall l a, received (map unknown_sender l) a = received l a).
  { intros l a. unfold received. rewrite map_map. f_equal. apply map_ext. intros t. rewrite Ur, Uv. reflexivity. }
  assert (Els : forall l a, match last_creation (map unknown_sender l) a, last_creation l a with
     | Some x, Some y => x_recipient_type x = x_recipient_type y /\ x_data x = x_data y /\ x_value x = x_value y
     | None, None => True | _, _ => False end).
  { induction l as [|t l IH]; intros a; cbn [map last_creation]; [exact I|]. specialize (IH a).
    destruct (last_creation (map unknown_sender l) a), (last_creation l a); try contradiction; [exact IH|].
    destruct t as [|y]; [exact I|]. cbn. destruct (Z.odd (x_flags y) && bool_decide (x_recipient y = a)); cbn; auto. }
  assert (Ese : forall l a x, settled H M (map unknown_sender l) a x <-> settled H M l a x).
  { intros l a x. unfold settled. cbv zeta. rewrite Ech, Ere. specialize (Els l a).
    destruct (last_creation (map unknown_sender l) a), (last_creation l a); try contradiction; [|tauto]. destruct Els as (-> & -> & ->). tauto. }
  assert (Epr : forall l a x, to_prune H (map unknown_sender l) a x <-> to_prune H l a x).
  { intros l a x. unfold to_prune. split; intros ((t & Ht & Es) & Hx); (split; [|exact Hx]).
    - apply elem_of_list_fmap in Ht as (t0 & -> & Ht). exists t0. rewrite Us in Es. auto.
    - exists (unknown_sender t). rewrite Us. split; [apply elem_of_list_fmap_1; exact Ht|exact Es]. }
  constructor; rewrite ?Et, ?Em, ?Ep.
  - exact R0.
  - intros pre t post El. apply map_eq_app in El as (l1 & l2 & El & <- & E2). destruct l2 as [|t0 l2]; [discriminate E2|].
    cbn in E2. injection E2 as <- _. destruct (R1 l1 t0 l2 El) as (T1 & T2).
    rewrite Us. split.
    + destruct t0; [exact T1|left; reflexivity].
    + assert (Ea : after_debits H M (map unknown_sender l1) (tx_sender H t0) = after_debits H M l1 (tx_sender H t0)) by (unfold after_debits; rewrite Ech; reflexivity).
      rewrite Ea. destruct t0; [exact T2|]. destruct (after_debits H M l1 _); exact T2.
  - intros t Ht. apply elem_of_list_fmap in Ht as (t0 & -> & Ht). rewrite Ur. destruct (R2 t0 Ht) as (B & T). split; [exact B|]. destruct t0; exact T.
  - intros y Hy Hc. apply elem_of_list_fmap in Hy as (t0 & E0 & Ht). destruct t0 as [|z]; [discriminate E0|]. cbn in E0. injection E0 as ->. exact (R3 z Ht Hc).
  - intros a x Hx. rewrite Epr. apply R4, Ese, Hx.
  - intros x Hx. rewrite Epr. apply R5, Ese, Hx.
Qed.
Print Assumptions C80_unknown_type_refuted.
Example C80_example oob :
  let txs := map unknown_sender [claim 200 0] in
  lists (state_of small_accounts) (ledger_of small_accounts) /\
  (let '(o, s', _) := tree_Push toy_hash oob (state_of small_accounts) initial_cache (transfer_block txs) in
   o = Ok tt /\ tree_get_account s' (addr 3) = Ok (ABasic 200)) /\
  Forall (fun t => tx_sender_type t = 255 /\ AccountType (acct (ledger_of small_accounts) (tx_sender toy_hash t)) = 2) txs.
Proof.
  cbv zeta. split; [apply (state_of_ok oob), small_accounts_ok|]. split; [vm_compute; split; reflexivity|].
  repeat constructor.
Qed.

(** ** C81 *)
(** Transactions that differ in nothing but signatures: those of basic transactions, and the whole proof of
    extended transactions announced as sent by a basic account. *)
Definition only_signatures (t t' : Tx) : Prop :=
  match t, t' with
  | TBasic b, TBasic b' => exists sig, b' = WalletSpec.with_signature b sig
  | TExtended x, TExtended x' => x_sender_type x = 0 /\ exists proof, x' = WalletSpec.with_proof x proof
  | _, _ => False
  end.
Theorem C81_signatures_ignored H oob s c h i m e p l l' :
  Forall2 only_signatures l l' ->
  tree_Push H oob s c (MkBlock h i (Some (MkBody m e (map Some l) p))) = tree_Push H oob s c (MkBlock h i (Some (MkBody m e (map Some l') p))).
Proof.
  intros Hl. apply Push_same. split; [reflexivity|]. cbn. split; [reflexivity|]. split; [reflexivity|].
  induction Hl as [|t t' l l' Ht _ IH]; cbn; constructor; [|exact IH].
  destruct t as [b|x], t' as [b'|x']; try contradiction; cbn in Ht.
  - destruct Ht as (sig & ->). unfold same_effect. cbn. split_ands; try reflexivity; try discriminate.
  - destruct Ht as (Ht & proof & ->). unfold same_effect. cbn. split_ands; try reflexivity. rewrite Ht. constructor.
Qed.
Print Assumptions C81_signatures_ignored.
(** Anyone can spend from any basic account: an extended transaction without any proof moves its money. *)
Definition unsigned (a to : bytes) (value fee : Z) : Tx := TExtended (MkExtendedTx [] a 0 to 0 value fee 1 42 0 []).
Theorem C81_anyone_spends H oob s c M a to value fee b o s' c' :
  hash_fn H -> areach H oob s c -> lists s M -> block_ok b -> bh_height (bl_header b) <> 0 ->
  is_basic (acct M a) -> is_basic (acct M to) -> a <> to -> array 20 a -> array 20 to ->
  0 <= value -> 0 <= fee -> value + fee <= Balance (acct M a) ->
  bl_body b = Some (body_of to [unsigned a to value fee] []) ->
  total M + block_reward_spec (bh_height (bl_header b)) < 2 ^ 64 ->
  tree_Push H oob s c b = (o, s', c') ->
  o = Ok tt /\ tree_get_account s' a = Ok (ABasic (Balance (acct M a) - value - fee)) /\
  tree_get_account s' to = Ok (ABasic (Balance (acct M to) + value + fee + block_reward_spec (bh_height (bl_header b)))).
Proof.
  intros HH Hr HL Hb Hh Ba Bt Hne Ha Hto Hv Hf Hbal Eb Ht E.
  pose proof (balance_64 _ (acct_ok M a (proj1 HL))) as Hu. unfold u64 in Hu.
  assert (Es : forall z, sent H [unsigned a to value fee] z = if decide (a = z) then value + fee else 0).
  { intros z. unfold sent. cbn. destruct (decide (a = z)); lia. }
  assert (Er : forall z, received [unsigned a to value fee] z = if decide (to = z) then value else 0).
  { intros z. unfold received. cbn. destruct (decide (to = z)); lia. }
  destruct (C53_transfers H oob s c M b _ o s' c' HH Hr HL Hb Eb Hh) as (P1 & P2 & P3); rewrite ?txs_of_body; try assumption; try reflexivity.
  - constructor; [|constructor]. unfold plain_transfer, no_wrap. cbn. split_ands; try reflexivity; try assumption. lia.
  - rewrite txs_of_body in P1, P3. assert (Ho : o = Ok tt).
    { apply P1. intros z. rewrite Es. destruct (decide (a = z)) as [<-|]; [lia|]. pose proof (balance_64 _ (acct_ok M z (proj1 HL))) as Hz. unfold u64 in Hz. lia. }
    split; [exact Ho|]. pose proof (P3 Ho a Ha) as Pa. pose proof (P3 Ho to Hto) as Pt. cbn [bb_miner body_of] in Pa, Pt. rewrite Es, Er in Pa, Pt.
    rewrite decide_True in Pa by reflexivity. rewrite !decide_False in Pa by congruence.
    rewrite decide_False in Pt by congruence. rewrite !decide_True in Pt by reflexivity.
    assert (Ef : fees [unsigned a to value fee] = fee) by (unfold fees; cbn; lia). rewrite Ef in Pt.
    rewrite Pa, Pt. destruct Ba as (v & Ev). destruct Bt as (w & Ew). rewrite Ev, Ew. cbn. split; f_equal; f_equal; lia.
Qed.
Print Assumptions C81_anyone_spends.
Example C81_example oob :
  let b := AccountsProps.block_of 1 (body_of (addr 9) [unsigned (addr 1) (addr 9) 990 10] []) in
  areach toy_hash oob (state_of small_accounts) initial_cache /\ lists (state_of small_accounts) (ledger_of small_accounts) /\ block_ok b /\
  is_basic (acct (ledger_of small_accounts) (addr 1)) /\ is_basic (acct (ledger_of small_accounts) (addr 9)) /\ addr 1 <> addr 9 /\
  990 + 10 <= Balance (acct (ledger_of small_accounts) (addr 1)) /\
  let '(o, s', _) := tree_Push toy_hash oob (state_of small_accounts) initial_cache b in
  o = Ok tt /\ tree_get_account s' (addr 1) = Ok (ABasic 0).
Proof.
  cbv zeta. destruct (state_of_ok oob small_accounts small_accounts_ok) as (Hr & HL). split; [exact Hr|]. split; [exact HL|].
  split.
  { apply block_of_ok; [unfold PolicySpec.u32, WireSpec.u32; lia|]. apply body_of_ok; [apply addr_ok| |reflexivity|constructor|reflexivity].
    constructor; [|constructor]. cbn -[addr Z.pow]. unfold WireSpec.u32, u8, u64. split_ands; try lia; try apply addr_ok; try constructor. }
  split; [eexists; vm_compute; reflexivity|]. split; [eexists; vm_compute; reflexivity|]. split; [vm_compute; discriminate|].
  split; [vm_compute; discriminate|]. vm_compute. split; reflexivity.
Qed.
(** A basic transaction is signed by the holder of its key. *)
Definition signed (ed_verify : bytes -> bytes -> bytes -> bool) (H : bytes -> bytes) (t : Tx) : Prop :=
  match t with
  | TBasic b => ed_verify (b_pubkey b) (WalletSpec.signed_bytes H t) (b_signature b) = true
  | TExtended x => exists p, proof_ok p /\ x_proof x = proof_bytes p /\ signer_of H p = x_sender x /\
                     ed_verify (PublicKey p) (WalletSpec.signed_bytes H t) (Signature p) = true
  end.
Theorem C81_signed_refuted H oob ed_verify :
  hash_fn H ->
  ~ (forall s c M b body s' c', areach H oob s c -> lists s M -> block_ok b -> bl_body b = Some body ->
       Forall (fun t => tx_sender_type t = 0) (txs_of body) ->
       tree_Push H oob s c b = (Ok tt, s', c') -> Forall (signed ed_verify H) (txs_of body)).
Proof.
  intros HH P. pose proof (areach_new H oob) as Hr.
  assert (HL : lists new_tree ∅).
  { apply (holds_lists H). split; [|apply ledger_ok_empty]. unfold enc_ledger. rewrite fmap_empty. constructor. }
  set (t := unsigned (repeat 1 20) (repeat 2 20) 0 0).
  assert (A : forall i, 0 <= i < 256 -> array 20 (repeat i 20)) by (intros i Hi; apply array_repeat; exact Hi).
  assert (Hb : block_ok (AccountsProps.block_of 1 (body_of (repeat 2 20) [t] []))).
  { apply block_of_ok; [unfold PolicySpec.u32, WireSpec.u32; lia|]. apply body_of_ok; [apply A; lia| |reflexivity|constructor|reflexivity].
    constructor; [|constructor]. cbn -[repeat Z.pow]. unfold WireSpec.u32, u8, u64. split_ands; try lia; try (apply A; lia); try constructor. }
  destruct (tree_Push H oob new_tree initial_cache (AccountsProps.block_of 1 (body_of (repeat 2 20) [t] []))) as ((o & s') & c') eqn:E.
  destruct (C81_anyone_spends H oob new_tree initial_cache ∅ (repeat 1 20) (repeat 2 20) 0 0 _ o s' c' HH Hr HL Hb) as (-> & _); try exact E; try reflexivity; try discriminate; try lia.
  1, 2: exists 0; reflexivity.
  1, 2: apply A; lia.
  specialize (P _ _ _ _ _ s' c' Hr HL Hb eq_refl). rewrite txs_of_body in P. specialize (P ltac:(repeat constructor) E).
  apply Forall_cons in P as ((p & Hp & Ep & _) & _). unfold proof_bytes in Ep. destruct Hp as ((Hl & _) & _). cbn in Ep.
  apply (f_equal length) in Ep. rewrite !app_length, Hl in Ep. discriminate Ep.
Qed.
Print Assumptions C81_signed_refuted.
(** What is checked: money of a vesting contract moves only with a proof that names the owner's key. *)
Theorem C81_owner_named_partial H oob s c M b body s' c' t v :
  hash_fn H -> areach H oob s c -> lists s M -> block_ok b -> bl_body b = Some body ->
  tree_Push H oob s c b = (Ok tt, s', c') -> t ∈ txs_of body -> acct M (tx_sender H t) = AVesting v ->
  exists x p, t = TExtended x /\ proof_ok p /\ x_proof x = proof_bytes p /\ signer_of H p = v_owner v.
Proof.
  intros HH Hr HL Hb Eb E Ht Ev. apply (C79_accepts H oob s c M b body _ s' c' HH Hr HL Hb Eb) in E as E'. destruct (proj1 E' eq_refl) as [_ R1 _ _ _ _].
  apply elem_of_list_split in Ht as (l1 & l2 & El). destruct (R1 l1 t l2 El) as (_ & T). unfold after_debits in T. rewrite Ev in T. cbn [with_balance] in T.
  destruct t as [|x]; [contradiction|]. cbn in T. destruct T as (_ & p & H1 & H2 & H3). exists x, p. auto.
Qed.
Print Assumptions C81_owner_named_partial.
(** Money of an HTLC moves only by its rules. *)
Theorem C81_htlc_partial H oob s c M b body s' c' t k :
  hash_fn H -> areach H oob s c -> lists s M -> block_ok b -> bl_body b = Some body ->
  tree_Push H oob s c b = (Ok tt, s', c') -> t ∈ txs_of body -> acct M (tx_sender H t) = AHTLC k ->
  exists x, t = TExtended x /\ let height := bh_height (bl_header b) in
    (htlc_regular H k (x_proof x) height \/ htlc_early H k (x_proof x) \/ htlc_timeout H k (x_proof x) height).
Proof.
  intros HH Hr HL Hb Eb E Ht Ev. apply (C79_accepts H oob s c M b body _ s' c' HH Hr HL Hb Eb) in E as E'. destruct (proj1 E' eq_refl) as [_ R1 _ _ _ _].
  apply elem_of_list_split in Ht as (l1 & l2 & El). destruct (R1 l1 t l2 El) as (_ & T). unfold after_debits in T. rewrite Ev in T. cbn [with_balance] in T.
  destruct t as [|x]; [contradiction|]. cbn in T. exists x. split; [reflexivity|]. exact (proj2 T).
Qed.
Print Assumptions C81_htlc_partial.

(** ** C82 *)
(** The property is false of the code: the validity start heights and the network of transactions are not read. *)
Definition retimed (start network : Z) (t : Tx) : Tx :=
  match t with
  | TBasic b => TBasic (MkBasicTx (b_pubkey b) (b_recipient b) (b_value b) (b_fee b) start network (b_signature b))
  | TExtended x => TExtended (MkExtendedTx (x_data x) (x_sender x) (x_sender_type x) (x_recipient x) (x_recipient_type x) (x_value x) (x_fee x)
                     start network (x_flags x) (x_proof x))
  end.
Theorem C82_window_refuted H oob s c h i m e p l start network :
  tree_Push H oob s c (MkBlock h i (Some (MkBody m e (map Some (map (retimed start network) l)) p))) =
  tree_Push H oob s c (MkBlock h i (Some (MkBody m e (map Some l) p))).
Proof.
  apply Push_same. split; [reflexivity|]. cbn. split; [reflexivity|]. split; [reflexivity|].
  induction l as [|t l IH]; cbn; constructor; [|exact IH]. destruct t as [b|x]; unfold same_effect; cbn; split_ands; try reflexivity.
  constructor.
Qed.
Print Assumptions C82_window_refuted.
(** And the same transactions can be applied again and again: in any second block with the same transfers, if only
    the senders have twice what they send. *)
Theorem C82_replay_refuted H oob s c M b body o s1 c1 b2 body2 o2 s2 c2 :
  hash_fn H -> areach H oob s c -> lists s M ->
  block_ok b -> bl_body b = Some body -> bh_height (bl_header b) <> 0 -> is_basic (acct M (bb_miner body)) -> bb_pruned body = [] ->
  block_ok b2 -> bl_body b2 = Some body2 -> bh_height (bl_header b2) <> 0 -> is_basic (acct M (bb_miner body2)) -> bb_pruned body2 = [] ->
  txs_of body2 = txs_of body -> Forall (plain_transfer H M) (txs_of body) ->
  total M + block_reward_spec (bh_height (bl_header b)) + block_reward_spec (bh_height (bl_header b2)) < 2 ^ 64 ->
  (forall a, 2 * sent H (txs_of body) a <= Balance (acct M a)) ->
  tree_Push H oob s c b = (o, s1, c1) -> tree_Push H oob s1 c1 b2 = (o2, s2, c2) ->
  o = Ok tt /\ o2 = Ok tt.
Proof.
  intros HH Hr HL Hb Eb Hh Hm Hpr Hb2 Eb2 Hh2 Hm2 Hpr2 Et Hp Ht Hs E E2.
  pose proof (block_reward_bound (bh_height (bl_header b2))) as Hrw2.
  assert (Hpos : forall a, 0 <= sent H (txs_of body) a /\ 0 <= received (txs_of body) a /\ 0 <= fees (txs_of body)).
  { intros a. destruct Hb as (_ & Hb). destruct (Hb body Eb) as (_ & _ & _ & _ & Hl & _).
    assert (Hok : Forall tx_ok (txs_of body)) by (apply present_ok; exact Hl). clear -Hok.
    induction Hok as [|t l Ht _ IH]; [unfold sent, received, fees; cbn; lia|]. destruct (value_64 t Ht) as (H1 & H2). unfold u64 in *.
    unfold sent, received, fees in *. cbn [map sum foldr] in *. unfold sum in *. cbn [foldr].
    destruct (decide (tx_sender H t = a)), (decide (tx_recipient t = a)); lia. }
  destruct (C53_transfers H oob s c M b body o s1 c1 HH Hr HL Hb Eb Hh Hp Hm Hpr ltac:(lia) E) as (P1 & _ & P3).
  assert (Ho : o = Ok tt) by (apply P1; intros a; specialize (Hs a); specialize (Hpos a); lia).
  split; [exact Ho|]. specialize (P3 Ho). subst o.
  destruct (push_ledger H oob s c M b _ s1 c1 HH Hr HL Hb E) as (M1 & _ & HM1 & _). pose proof (holds_lists _ _ _ HM1) as HL1.
  assert (Hr1 : areach H oob s1 c1) by (eapply areach_push; [exact Hr|exact Hb|exact E]).
  assert (EM : forall a, array 20 a -> acct M1 a = with_balance (acct M a) (Balance (acct M a) - sent H (txs_of body) a + received (txs_of body) a +
            (if decide (a = bb_miner body) then block_reward_spec (bh_height (bl_header b)) + fees (txs_of body) else 0))).
  { intros a Ha. pose proof (tree_get H s1 M1 a HM1 Ha) as G. rewrite P3 in G by exact Ha. congruence. }
  assert (Eout : forall a, ~ array 20 a -> acct M1 a = ABasic 0).
  { intros a Ha. unfold acct. destruct (M1 !! a) as [x|] eqn:Ex; [|reflexivity]. contradiction Ha. apply (proj1 HL1 a x Ex). }
  assert (Hbas : forall a, is_basic (acct M a) -> is_basic (acct M1 a)).
  { intros a (v & Ev). assert (Hd : array 20 a \/ ~ array 20 a).
    { unfold array. destruct (decide (length a = 20%nat)); [|right; intros (? & _); contradiction].
      assert (Hd : bytes_ok a \/ ~ bytes_ok a).
      { destruct (bytes_okb a) eqn:Eo; [left; apply bytes_okb_spec; exact Eo|right; intros Hc; apply bytes_okb_spec in Hc; congruence]. }
      tauto. }
    destruct Hd as [Ha|Ha]; [rewrite EM by exact Ha; rewrite Ev; eexists; reflexivity|]. rewrite (Eout a Ha). eexists. reflexivity. }
  assert (Htot : total M1 = total M + block_reward_spec (bh_height (bl_header b))).
  { eapply (C55_basic_senders_partial H oob s c M b body s1 c1 M1 HH Hr HL Hb Eb); [| |lia|exact E|exact HL1].
    - eapply Forall_impl; [exact Hp|]. intros t (_ & _ & _ & Hw & _). exact Hw.
    - eapply Forall_impl; [exact Hp|]. intros t (_ & _ & _ & _ & Hbs & _). exact Hbs. }
  eapply (C53_transfers H oob s1 c1 M1 b2 body2 o2 s2 c2 HH Hr1 HL1 Hb2 Eb2 Hh2); try assumption.
  - rewrite Et. eapply Forall_impl; [exact Hp|]. intros t (A1 & A2 & A3 & A4 & A5 & A6). unfold plain_transfer. split_ands; try assumption; apply Hbas; assumption.
  - apply Hbas. exact Hm2.
  - rewrite Htot. lia.
  - rewrite Et. intros a. specialize (Hpos a). specialize (Hs a).
    pose proof (block_reward_bound (bh_height (bl_header b))) as Hrw.
    destruct (Z.eq_dec (sent H (txs_of body) a) 0) as [E0|E0].
    + rewrite E0. pose proof (balance_64 _ (acct_ok M1 a (proj1 HL1))) as Hz. unfold u64 in Hz. lia.
    + assert (Ha : array 20 a).
      { destruct Hb as (_ & Hb). destruct (Hb body Eb) as (_ & _ & _ & _ & Hl & _). pose proof (present_ok _ Hl) as Hok. change (present (bb_txs body)) with (txs_of body) in Hok.
        clear -E0 Hok HH. induction Hok as [|t l Ht _ IH]; [cbn in E0; contradiction|]. unfold sent in E0. cbn [map sum foldr] in E0.
        destruct (decide (tx_sender H t = a)) as [<-|]; [apply sender_20; assumption|]. apply IH. exact E0. }
      rewrite EM by exact Ha. rewrite balance_with. destruct (decide (a = bb_miner body)); lia.
Qed.
Print Assumptions C82_replay_refuted.
Example C82_example oob :
  let b h := AccountsProps.block_of h (body_of (addr 4) transfers []) in
  areach toy_hash oob (state_of small_accounts) initial_cache /\ lists (state_of small_accounts) (ledger_of small_accounts) /\
  block_ok (b 1) /\ block_ok (b 2) /\ Forall (plain_transfer toy_hash (ledger_of small_accounts)) transfers /\
  map (fun i => sent toy_hash transfers (addr i)) [1; 2] = [312; 31] /\
  let '(o, s1, c1) := tree_Push toy_hash oob (state_of small_accounts) initial_cache (b 1) in
  let '(o2, s2, c2) := tree_Push toy_hash oob s1 c1 (b 2) in
  o = Ok tt /\ o2 = Ok tt /\ map (tree_get_account s2) [addr 1; addr 2; addr 3] = [Ok (ABasic 776); Ok (ABasic 188); Ok (ABasic 60)].
Proof.
  cbv zeta. destruct (state_of_ok oob small_accounts small_accounts_ok) as (Hr & HL). split; [exact Hr|]. split; [exact HL|].
  assert (Hb : forall h, u32 h -> block_ok (AccountsProps.block_of h (body_of (addr 4) transfers []))).
  { intros h Hh. apply block_of_ok; [exact Hh|]. apply body_of_ok; [apply addr_ok|apply transfers_ok|reflexivity|constructor|reflexivity]. }
  split; [apply Hb; unfold PolicySpec.u32, WireSpec.u32; lia|]. split; [apply Hb; unfold PolicySpec.u32, WireSpec.u32; lia|].
  split; [apply transfers_plain|]. split; vm_compute; [reflexivity|]. split_ands; reflexivity.
Qed.

(** ** C83 *)
(** The property is false of the code: of the header only the height is read, and neither the interlink nor the
    extra data; so any block can be given any commitments. *)
Theorem C83_header_refuted H oob s c h h' i i' m e e' p l :
  bh_height h' = bh_height h ->
  tree_Push H oob s c (MkBlock h' i' (Some (MkBody m e' l p))) = tree_Push H oob s c (MkBlock h i (Some (MkBody m e l p))).
Proof.
  intros Hh. apply Push_same. split; [exact Hh|]. cbn. split; [reflexivity|]. split; [reflexivity|].
  induction l as [|[t|] l IH]; constructor; try assumption; [|exact I].
  unfold same_effect. split_ands; try reflexivity. destruct t; [exact I|]. constructor.
Qed.
Print Assumptions C83_header_refuted.
(** In particular Push does not establish the accounts hash that the header announces. *)
Theorem C83_accounts_hash_refuted H oob :
  hash_fn H ->
  ~ (forall s c b s' c', areach H oob s c -> block_ok b -> tree_Push H oob s c b = (Ok tt, s', c') ->
       Hash H s' = Ok (bh_accounts (bl_header b))).
Proof.
  intros HH P. pose proof (areach_new H oob) as Hr.
  assert (HL : lists new_tree ∅).
  { apply (holds_lists H). split; [|apply ledger_ok_empty]. unfold enc_ledger. rewrite fmap_empty. constructor. }
  set (hd r := MkHeader 1 (repeat 0 32) (repeat 0 32) (repeat 0 32) (repeat r 32) 0 1 0 0).
  set (bl r := MkBlock (hd r) (MkInterlink (MkBitSet 0 []) [] (repeat 0 32) []) (Some (body_of (repeat 2 20) [] []))).
  assert (Hb : forall r, 0 <= r < 256 -> block_ok (bl r)).
  { intros r Hrr. split.
    - unfold bl, hd, header_ok. cbn -[repeat Z.pow]. unfold u16, WireSpec.u32. split_ands; try lia; apply array_repeat; lia.
    - intros y Ey. assert (y = body_of (repeat 2 20) [] []) as -> by (cbn [bl bl_body] in Ey; congruence). apply body_of_ok; [apply array_repeat; lia|constructor|reflexivity|constructor|reflexivity]. }
  destruct (tree_Push H oob new_tree initial_cache (bl 0)) as ((o & s') & c') eqn:E.
  assert (E1 : tree_Push H oob new_tree initial_cache (bl 1) = (o, s', c')) by (rewrite <- E; apply C83_header_refuted; reflexivity).
  assert (Ho : o = Ok tt).
  { eapply (C53_transfers H oob _ _ ∅ (bl 0) (body_of (repeat 2 20) [] []) o s' c' HH Hr HL (Hb 0 ltac:(lia)) eq_refl); try exact E; try reflexivity.
    - discriminate.
    - constructor.
    - exists 0. reflexivity. }
  subst o. pose proof (P _ _ _ _ _ Hr (Hb 0 ltac:(lia)) E) as H0. pose proof (P _ _ _ _ _ Hr (Hb 1 ltac:(lia)) E1) as H1.
  rewrite H0 in H1. discriminate H1.
Qed.
Print Assumptions C83_accounts_hash_refuted.
(** The program that replays an archive does compare the accounts hash (C73); Push does use the height. *)
Theorem C83_height_used_partial H oob s c M h i body o s' c' a :
  hash_fn H -> areach H oob s c -> lists s M -> block_ok (MkBlock h i (Some body)) ->
  bb_txs body = [] -> bb_pruned body = [] -> a = bb_miner body -> is_basic (acct M a) ->
  Balance (acct M a) + block_reward_spec (bh_height h) < 2 ^ 64 ->
  tree_Push H oob s c (MkBlock h i (Some body)) = (o, s', c') ->
  (bh_height h = 0 -> o = Panic) /\
  (bh_height h <> 0 -> o = Ok tt /\ tree_get_account s' a = Ok (ABasic (Balance (acct M a) + block_reward_spec (bh_height h)))).
Proof.
  intros HH Hr HL Hb Et Ep -> (v & Ev) Hlt E. pose proof Hb as (Hhd & Hbo). destruct (Hbo body eq_refl) as (Hm & _).
  destruct (push_ledger H oob s c M _ o s' c' HH Hr HL Hb E) as (M' & E' & HM' & HM & Hc & _).
  unfold ledger_Push, Push in E'. cbv zeta in E'. cbn [bl_body bl_header] in E'.
  unfold push_body in E'. rewrite Et in E'. cbn [pushSenders for_txs pushRecipients createContracts pruneAccounts] in E'.
  unfold pushSenders, pushRecipients, createContracts, pruneAccounts in E'. rewrite Et, Ep in E'. cbn [for_txs prune_txs prune_map foldl] in E'.
  unfold done, andthen in E'. rewrite decide_True in E' by reflexivity.
  destruct (BlockReward_ok c (bh_height h) Hc ltac:(apply Hhd)) as (_ & Er). destruct (BlockReward c (bh_height h)) as (c1 & base). cbn [snd] in Er. subst base.
  destruct (Z.eqb_spec (bh_height h) 0) as [E0|E0].
  - unfold stop in E'. injection E' as <- _ _. split; [reflexivity|contradiction].
  - split; [contradiction|]. intros _. unfold stop in E'.
    rewrite inherents_eq in E' by (try (rewrite Et; constructor); apply block_reward_bound). rewrite Ev in E'. injection E' as <- <- _. split; [reflexivity|].
    rewrite (tree_get H s' _ (bb_miner body) HM' Hm), acct_set_eq, Ev. cbn [from_option id Balance]. rewrite Ev in Hlt. cbn [Balance] in Hlt.
    assert (Ef : fees (txs_of body) = 0) by (unfold txs_of; rewrite Et; reflexivity).
    pose proof (block_reward_bound (bh_height h)) as Hrb. pose proof (balance_64 _ (acct_ok M (bb_miner body) HM)) as Hu. rewrite Ev in Hu. unfold u64 in Hu. cbn [Balance] in Hu.
    rewrite Ef, Z.add_0_r, Z.mod_small by lia. reflexivity.
Qed.
Print Assumptions C83_height_used_partial.

(** ** C84 *)
(** Blocks at the heights h, h + 1, ..., pushed onto a state with the supply of height h - 1, whose transactions
    pay their fees: afterwards there is exactly the money that package policy says. *)
Theorem C84_supply_partial H oob s c M bs s' c' M' h :
  hash_fn H -> areach H oob s c -> lists s M -> chain H oob s c bs s' c' -> 1 <= h -> heights_from h bs ->
  (forall b body t, b ∈ bs -> bl_body b = Some body -> t ∈ txs_of body -> fee_paid t) ->
  total M = supply_after_spec (h - 1) -> lists s' M' ->
  total M' = supply_after_spec (h - 1 + zlen bs) /\
  forall history, Forall (fun o => PolicySpec.u32 (call_height o)) history -> h - 1 + zlen bs < 2 ^ 32 ->
    snd (SupplyAfter (cache_after history) (h - 1 + zlen bs)) = Ok (total M').
Proof.
  intros HH Hr HL Hc. revert M M' h Hr HL. induction Hc as [s c|s c b bs s1 c1 s' c' Hb E Hc IH]; intros M M' h Hr HL Hh Hhs Hf Ht HL'.
  - assert (M' = M) as -> by (apply (lists_unique s); assumption). change (zlen []) with 0. rewrite Z.add_0_r. split; [exact Ht|].
    intros hist Hhist Hlt. rewrite Ht. apply SupplyAfter_ok; [apply cache_after_ok, Hhist|unfold PolicySpec.u32; lia].
  - destruct Hhs as (E0 & Hhs). destruct (bl_body b) as [body|] eqn:Eb.
    2: { unfold tree_Push, Push in E. rewrite Eb in E. discriminate E. }
    assert (Hr1 : areach H oob s1 c1) by (eapply areach_push; [exact Hr|exact Hb|exact E]).
    destruct (C52_ledger_exists H oob s1 c1 HH Hr1) as (M1 & HL1 & _).
    assert (Hfp : Forall fee_paid (txs_of body)).
    { apply Forall_forall. intros t Hin. eapply Hf; [constructor|exact Eb|exact Hin]. }
    assert (Hrw : supply_after_spec h = supply_after_spec (h - 1) + block_reward_spec h).
    { unfold supply_after_spec, block_reward_spec. replace (S (Z.to_nat (h - 1))) with (Z.to_nat h) by lia. cbn [supply_before]. rewrite Z2Nat.id by lia. reflexivity. }
    assert (Hsb : supply_after_spec h <= 2100000000000000) by (pose proof (supply_before_bounds (S (Z.to_nat h))) as Hbd; unfold TotalSupply in Hbd; apply Hbd).
    assert (Hty : forall t, t ∈ txs_of body -> tx_sender_type t = AccountType (acct M (tx_sender H t))).
    { intros t Hin. pose proof (C80_types_partial H oob s c M b body s1 c1 t HH Hr HL Hb Eb E Hin) as (T & _). apply T.
      pose proof (proj1 (Forall_forall _ _) Hfp t Hin) as (_ & [X|(X & _)]); rewrite X; discriminate. }
    assert (Hu : unpaid_fees H M (txs_of body) = 0).
    { unfold unpaid_fees. rewrite (sum_map_ext _ (fun _ => 0)), sum_map_zero; [reflexivity|]. intros t Hin.
      pose proof (proj1 (Forall_forall _ _) Hfp t Hin) as (_ & X). specialize (Hty t Hin). destruct (acct M (tx_sender H t)); cbn in Hty; [reflexivity|lia|].
      destruct X as [X|(_ & X)]; lia. }
    assert (Hv : forall a, AccountType (acct M a) = 1 -> sum (map tx_value (filter (fun t => tx_sender H t = a) (txs_of body))) <= Balance (acct M a)).
    { intros a Ha. rewrite (sum_map_ext _ (fun _ => 0)), sum_map_zero.
      - pose proof (balance_64 _ (acct_ok M a (proj1 HL))) as Hb64. unfold u64 in Hb64. lia.
      - intros t Hin. apply elem_of_list_filter in Hin as (<- & Hin). specialize (Hty t Hin). rewrite Ha in Hty.
        pose proof (proj1 (Forall_forall _ _) Hfp t Hin) as (_ & [X|(X & _)]); lia. }
    assert (Ht1 : total M1 = supply_after_spec (h + 1 - 1)).
    { rewrite (C55_total_partial H oob s c M b body s1 c1 M1 HH Hr HL Hb Eb); try assumption; rewrite ?Hu, ?E0, ?Ht; [replace (h + 1 - 1) with h by lia; lia| |lia].
      eapply Forall_impl; [exact Hfp|]. intros t (Hw & _). exact Hw. }
    destruct (IH M1 M' (h + 1) Hr1 HL1 ltac:(lia) Hhs ltac:(intros b' body' t Hin; apply Hf; constructor; exact Hin) Ht1 HL') as (I1 & I2).
    replace (h - 1 + zlen (b :: bs)) with (h + 1 - 1 + zlen bs) by (unfold zlen; cbn [length]; lia). split; [exact I1|exact I2].
Qed.
Print Assumptions C84_supply_partial.
Lemma replayed_chain H oob s c archive bs s' c' : Forall file_ok archive -> replayed H oob s c archive bs s' c' -> chain H oob s c bs s' c'.
Proof.
  intros Hf Hr. induction Hr as [s c|s c buf archive b body bs s1 c1 s' c' Hd Eb E _ _ IH]; [constructor|]. inversion Hf as [|? ? He Hf']; subst.
  econstructor; [eapply decoded_block_ok; [exact He|exact Hd]|exact E|apply IH, Hf'].
Qed.
(** The whole program: started from a profile whose accounts hold the initial supply, with an empty genesis block at
    height 1, it ends with the supply of its last block. *)
Theorem C84_program_partial H oob blockBuf accountsBuf archive n k s' c' p body0 M1 M' :
  hash_fn H -> bytes_ok blockBuf -> bytes_ok accountsBuf -> Forall file_ok archive ->
  gimiq H oob blockBuf accountsBuf archive = (Ok (n, k), s', c') ->
  openProfile blockBuf accountsBuf = Ok p ->
  ledger_ok M1 -> (forall a, acct M1 a = overwritten ∅ (g_accounts p) a) -> total M1 = 252000000000000 ->
  bh_height (bl_header (g_block p)) = 1 -> bl_body (g_block p) = Some body0 -> bb_txs body0 = [] ->
  (forall i buf b, nth_error archive (S i) = Some (File buf) -> decode_block buf = Ok (b, zlen buf) ->
     bh_height (bl_header b) = 2 + Z.of_nat i /\ forall body t, bl_body b = Some body -> t ∈ txs_of body -> fee_paid t) ->
  lists s' M' ->
  total M' = supply_after_spec (1 + n).
Proof.
  intros HH Hbb Hab Ha E Ep HM1 A1 Ht Hh0 Eb0 Et0 Hall HL'.
  apply (C73_program H oob blockBuf accountsBuf archive n k s' c' HH Hbb Hab Ha) in E as (p' & s & c & bs & Ep' & Ei & Hrep & -> & _).
  rewrite Ep in Ep'. injection Ep' as <-. pose proof (opened_ok _ _ _ Hbb Hab Ep) as Hp. pose proof (areach_new H oob) as Hr.
  assert (HL0 : lists new_tree ∅).
  { apply (holds_lists H). split; [|apply ledger_ok_empty]. unfold enc_ledger. rewrite fmap_empty. constructor. }
  destruct (C72_init_accounts H oob p new_tree initial_cache ∅ HH Hr HL0 Hp) as (s1 & N & o1 & o & s2 & c2 & Hr1 & HLN & AN & E2 & E3 & Hr2 & Ho & _).
  rewrite Ei in E3. injection E3 as <- <- <-. destruct (proj1 Ho eq_refl) as (-> & _).
  assert (N = M1) as ->.
  { apply ledger_ext; [apply HLN|exact HM1|]. intros a _. rewrite AN, A1. reflexivity. }
  assert (Hf' : Forall file_ok (tl archive)) by (destruct Ha; [constructor|assumption]).
  pose proof (replayed_chain H oob s c (tl archive) bs s' c' Hf' Hrep) as Hch.
  assert (Hc1 : chain H oob s1 initial_cache (g_block p :: bs) s' c') by (econstructor; [apply Hp|exact E2|exact Hch]).
  assert (Hbs : forall i b, nth_error bs i = Some b -> bh_height (bl_header b) = 2 + Z.of_nat i /\ forall body t, bl_body b = Some body -> t ∈ txs_of body -> fee_paid t).
  { assert (Hnth : forall i, nth_error archive (S i) = nth_error (tl archive) i) by (intros i; destruct archive; [destruct i; reflexivity|reflexivity]).
    assert (Hq : forall i buf b, nth_error (tl archive) i = Some (File buf) -> decode_block buf = Ok (b, zlen buf) ->
       bh_height (bl_header b) = 2 + Z.of_nat i /\ forall body t, bl_body b = Some body -> t ∈ txs_of body -> fee_paid t).
    { intros i buf b. rewrite <- Hnth. apply Hall. }
    clear -Hrep Hq. revert Hq. generalize 2 as z. induction Hrep as [|s c buf ar b body bs s1 c1 s' c' Hd Eb E Hh _ IH]; intros z Hq i b' Hn; [destruct i; discriminate Hn|].
    destruct i as [|i]; cbn in Hn.
    - injection Hn as <-. exact (Hq 0%nat buf b eq_refl Hd).
    - destruct (IH (z + 1) ltac:(intros j buf' b'' Hj Hd'; destruct (Hq (S j) buf' b'' Hj Hd') as (Q1 & Q2); split; [lia|exact Q2]) i b' Hn) as (Q1 & Q2).
      split; [lia|exact Q2]. }
  destruct (C84_supply_partial H oob s1 initial_cache M1 (g_block p :: bs) s' c' M' 1 HH Hr1 HLN Hc1 ltac:(lia)) as (R & _).
  - split; [exact Hh0|]. assert (Hz : forall i b, nth_error bs i = Some b -> bh_height (bl_header b) = 2 + Z.of_nat i) by (intros i b Hi; apply (Hbs i b Hi)).
    change (1 + 1) with 2. clear -Hz. revert Hz. generalize 2 as z. induction bs as [|b bs IH]; intros z Hz; [exact I|].
    split; [rewrite (Hz 0%nat b eq_refl); lia|]. apply IH. intros i b' Hi. rewrite (Hz (S i) b' Hi). lia.
  - intros b body t Hin Eb Hint. apply elem_of_cons in Hin as [->|Hin].
    + rewrite Eb0 in Eb. injection Eb as <-. unfold txs_of in Hint. rewrite Et0 in Hint. inversion Hint.
    + apply elem_of_list_lookup_1 in Hin as (i & Hi). apply (proj2 (Hbs i b ltac:(rewrite <- Hi; clear; revert i; induction bs as [|x bs IH]; intros [|i]; cbn; auto)) body t Eb Hint).
  - rewrite Ht. reflexivity.
  - exact HL'.
  - rewrite R. f_equal. unfold zlen. cbn [length]. lia.
Qed.
Print Assumptions C84_program_partial.
(** The property is false of the code: any accepted block in which a contract pays a fee breaks it for the rest of the
    chain. *)
Theorem C84_supply_refuted H oob s c M b body s' c' M' h :
  hash_fn H -> areach H oob s c -> lists s M -> block_ok b -> bl_body b = Some body -> bh_height (bl_header b) = h -> 1 <= h ->
  Forall no_wrap (txs_of body) -> (forall a, AccountType (acct M a) <> 1) ->
  total M = supply_after_spec (h - 1) -> unpaid_fees H M (txs_of body) < 2 ^ 63 ->
  tree_Push H oob s c b = (Ok tt, s', c') -> lists s' M' ->
  (exists t, t ∈ txs_of body /\ ~ is_basic (acct M (tx_sender H t)) /\ 0 < tx_fee t) ->
  supply_after_spec h < total M'.
Proof.
  intros HH Hr HL Hb Eb E0 Hh Hw Hv Ht Hu E HL' Hx.
  assert (Hrw : supply_after_spec h = supply_after_spec (h - 1) + block_reward_spec h).
  { unfold supply_after_spec, block_reward_spec. replace (S (Z.to_nat (h - 1))) with (Z.to_nat h) by lia. cbn [supply_before]. rewrite Z2Nat.id by lia. reflexivity. }
  assert (Hsb : supply_after_spec h <= 2100000000000000) by (pose proof (supply_before_bounds (S (Z.to_nat h))) as Hbd; unfold TotalSupply in Hbd; apply Hbd).
  pose proof (C55_contract_fee_refuted H oob s c M b body s' c' M' HH Hr HL Hb Eb Hw) as P. rewrite E0, Ht in P.
  specialize (P ltac:(intros a Ha; contradiction (Hv a Ha)) ltac:(lia) E HL' Hx). lia.
Qed.
Print Assumptions C84_supply_refuted.
(** An HTLC and a basic account holding the initial supply together; two blocks. *)
Definition supply_accounts : list (bytes * Account) :=
  [(addr 1, ABasic 251999999999500); (contract_addr, AHTLC (MkHTLC 500 (addr 1) (addr 2) (MkHash 3 (repeat 9 32)) 1 1000 500))].
Lemma supply_accounts_ok : Forall (fun p : bytes * Account => array 20 p.1 /\ account_ok p.2) supply_accounts.
Proof.
  assert (G : array 20 contract_addr) by (apply array_repeat; lia).
  repeat (constructor; [split; [try apply addr_ok; try exact G|]|]); try constructor; cbn [snd account_ok]; unfold u64, WireSpec.u32, u8, hash_ok; cbn -[repeat Z.pow addr]; try lia;
    split_ands; try lia; try apply addr_ok; try (apply array_repeat; lia).
Qed.
Example C84_example oob :
  let bs := [AccountsProps.block_of 1 (body_of (addr 4) [claim 200 0; pay 1 (addr 2) 100 5] []); AccountsProps.block_of 2 (body_of (addr 4) [pay 4 (addr 5) 1000 1] [])] in
  areach toy_hash oob (state_of supply_accounts) initial_cache /\ lists (state_of supply_accounts) (ledger_of supply_accounts) /\
  total (ledger_of supply_accounts) = supply_after_spec 0 /\ heights_from 1 bs /\
  (exists s' c', chain toy_hash oob (state_of supply_accounts) initial_cache bs s' c') /\
  (forall b body t, b ∈ bs -> bl_body b = Some body -> t ∈ txs_of body -> fee_paid t) /\
  supply_after_spec 2 = 252000881194963 /\
  let b' := AccountsProps.block_of 1 (body_of (addr 4) [claim 200 7] []) in
  fst (fst (tree_Push toy_hash oob (state_of supply_accounts) initial_cache b')) = Ok tt /\
  unpaid_fees toy_hash (ledger_of supply_accounts) [claim 200 7] = 7.
Proof.
  cbv zeta. destruct (state_of_ok oob supply_accounts supply_accounts_ok) as (Hr & HL). split; [exact Hr|]. split; [exact HL|].
  split; [vm_compute; reflexivity|]. split; [split; [reflexivity|split; [reflexivity|exact I]]|]. split.
  - assert (H1 : forall txs, Forall tx_ok txs -> forall h, u32 h -> zlen txs < 2 ^ 16 -> block_ok (AccountsProps.block_of h (body_of (addr 4) txs []))).
    { intros txs Ht h Hh Hl. apply block_of_ok; [exact Hh|]. apply body_of_ok; [apply addr_ok|exact Ht|exact Hl|constructor|reflexivity]. }
    assert (T1 : Forall tx_ok [claim 200 0; pay 1 (addr 2) 100 5]).
    { constructor; [apply claim_ok; unfold u64; lia|]. constructor; [|constructor]. apply pay_ok; [lia|apply addr_ok|unfold u64; lia|unfold u64; lia]. }
    assert (T2 : Forall tx_ok [pay 4 (addr 5) 1000 1]).
    { constructor; [|constructor]. apply pay_ok; [lia|apply addr_ok|unfold u64; lia|unfold u64; lia]. }
    set (b1 := AccountsProps.block_of 1 (body_of (addr 4) [claim 200 0; pay 1 (addr 2) 100 5] [])). set (b2 := AccountsProps.block_of 2 (body_of (addr 4) [pay 4 (addr 5) 1000 1] [])).
    assert (E : exists s1 c1 s2 c2, tree_Push toy_hash oob (state_of supply_accounts) initial_cache b1 = (Ok tt, s1, c1) /\ tree_Push toy_hash oob s1 c1 b2 = (Ok tt, s2, c2)).
    { assert (X : let '(o, s1, c1) := tree_Push toy_hash oob (state_of supply_accounts) initial_cache b1 in o = Ok tt /\ fst (fst (tree_Push toy_hash oob s1 c1 b2)) = Ok tt) by (vm_compute; split; reflexivity).
      destruct (tree_Push toy_hash oob (state_of supply_accounts) initial_cache b1) as ((o & s1) & c1). destruct X as (-> & X).
      destruct (tree_Push toy_hash oob s1 c1 b2) as ((o2 & s2) & c2) eqn:E2. cbn [fst] in X. subst o2. eauto 10. }
    destruct E as (s1 & c1 & s2 & c2 & E1 & E2). exists s2, c2.
    econstructor; [apply H1; [exact T1|unfold PolicySpec.u32, WireSpec.u32; lia|reflexivity]|exact E1|].
    econstructor; [apply H1; [exact T2|unfold PolicySpec.u32, WireSpec.u32; lia|reflexivity]|exact E2|constructor].
  - split; [|split; [vm_compute; reflexivity|split; vm_compute; reflexivity]]. intros b body t Hin Eb Ht. unfold fee_paid, no_wrap.
    repeat (apply elem_of_cons in Hin as [->|Hin]; [cbn [AccountsProps.block_of bl_body] in Eb; injection Eb as <-; cbn in Ht;
      repeat (apply elem_of_cons in Ht as [->|Ht]; [cbn; lia|]); inversion Ht|]). inversion Hin.
Qed.

(** ** C85 *)
(** The property is false of the code: Revert panics, for every block and every state. *)
Theorem C85_revert_refuted T (s : T) b : Revert T s b = (Panic, s).
Proof. reflexivity. Qed.
Print Assumptions C85_revert_refuted.

(** Property C95: trying a block on an overlay over the chain's accounts, then
    throwing the overlay away or flushing it. *)
From Coq Require Import ZArith List Lia Bool.
From stdpp Require Import gmap list.
From Verif.Model Require Import Base Address Beserial Wire Policy Account Tree Accounts.
From Verif.Spec Require Import AddressSpec TreeSpec TreeHistory PolicySpec BeserialSpec WireSpec AccountSpec AccountsSpec.
From Verif.Proofs Require Import BaseFacts PolicyFacts AccountFacts LedgerFacts PushFacts AccountsFacts TransferFacts TreeReach.
From Verif.Props Require Import TreeProps WireProps AccountProps AccountsProps.
Open Scope Z_scope.

Lemma run_app H l1 : forall s l2, run H s (l1 ++ l2) = (let? s' := run H s l1 in run H s' l2).
Proof.
  induction l1 as [|(k & v) l1 IH]; intros s l2; [reflexivity|]. cbn [app run].
  destruct (PutEntry H s k v) as [(s1 & b)|e| |]; cbn [bind]; [apply IH|reflexivity..].
Qed.

(** Every Push on a tree is a sequence of PutEntry calls with 20-byte keys. *)
Definition from_run (H : bytes -> bytes) (s0 s : state) (M : ledger) : Prop :=
  tree_holds H s M /\ exists hist, Forall (fun kv => addr20 kv.1) hist /\ run H s0 hist = Ok s.
Lemma from_run_put H s0 s M a x : from_run H s0 s M -> array 20 a -> (forall y, x = Some y -> account_ok y) ->
  exists s', tree_put_account H s a x = Ok s' /\ from_run H s0 s' (set_acct M a x).
Proof.
  intros (HM & hist & Hk & Er) Ha Hx. destruct (tree_put H s M a x HM Ha Hx) as (s' & E & HM').
  exists s'. split; [exact E|]. split; [exact HM'|].
  unfold tree_put_account in E. rewrite PutAccount_ok in E by exact Hx. unfold tree_put_entry in E.
  set (v := match x with Some y => _ | None => _ end) in E.
  exists (hist ++ [(a, v)]). split.
  - apply Forall_app. split; [exact Hk|]. apply Forall_cons. split; [exact Ha|]. apply Forall_nil. exact I.
  - rewrite run_app, Er. cbn [bind run]. destruct (PutEntry H s a v) as [(s1 & b)|e| |]; cbn [bind] in E |- *; try discriminate E. exact E.
Qed.
Lemma push_run H oob s c M b : hash_fn H -> tree_holds H s M -> block_ok b ->
  let '(o, s', c') := tree_Push H oob s c b in
  exists M' hist, ledger_Push H oob M c b = (o, M', c') /\ tree_holds H s' M' /\
    Forall (fun kv => addr20 kv.1) hist /\ run H s hist = Ok s'.
Proof.
  intros HH HM Hb.
  pose proof (sim_Push H oob HH state tree_get_account (tree_put_account H) (from_run H s)) as G.
  assert (HR : from_run H s s M). { split; [exact HM|]. exists []. split; [apply Forall_nil; exact I|reflexivity]. }
  specialize (G (fun s0 M0 HR => tree_ok H s0 M0 (proj1 HR)) (fun s0 M0 a HR => tree_get H s0 M0 a (proj1 HR)) (fun s0 M0 a x => from_run_put H s s0 M0 a x) s M c b HR Hb).
  change (Push H oob state tree_get_account (tree_put_account H) s c b) with (tree_Push H oob s c b) in G.
  destruct (tree_Push H oob s c b) as ((o & s') & c'). destruct G as (M' & E & (HM' & hist & Hk & Er)). exists M', hist. auto.
Qed.

(** C95, the part that holds.  After any Push on a tree over a fresh overlay —
    accepted, refused or panicking — the lower store still maps what it mapped,
    and every GetAccount on the lower tree returns what it returned before. *)
Theorem C95_accounts_untouched_partial :
  forall H oob s c b o u c', hash_fn H -> areach H oob s c -> block_ok b ->
    tree_Push H oob (open_overlay s) c b = (o, u, c') ->
    let lower := with_store u (sto s) in
    lower_of (sto u) = Some (sto s) /\
    forall a, array 20 a -> tree_get_account lower a = tree_get_account s a.
Proof.
  intros H oob s c b o u c' HH Hr Hb E lower.
  destruct (areach_holds H oob s c HH Hr) as ((M & HM) & _).
  assert (HMo : tree_holds H (open_overlay s) M) by (split; [apply reach_open, HM|apply HM]).
  pose proof (push_run H oob (open_overlay s) c M b HH HMo Hb) as G. rewrite E in G.
  destruct G as (M' & hist & _ & _ & Hk & Er).
  destruct (C25_lower_entries_untouched_partial H s _ hist u (proj1 HM) Hk Er) as (Hl & Hg).
  split; [exact Hl|]. intros a Ha. unfold tree_get_account, GetAccount. fold lower in Hg. rewrite (Hg a Ha). reflexivity.
Qed.
Print Assumptions C95_accounts_untouched_partial.

(** C95 is false: for every tree, block and outcome the root hash of the lower
    tree after the trial is that of the tried accounts, so if the trial changed
    any account the root of the discarded trial stays behind (or two serialised
    nodes of the two trees collide under the hash). *)
Theorem C95_root_refuted :
  forall H oob s c b o u c', hash_fn H -> areach H oob s c -> block_ok b ->
    tree_Push H oob (open_overlay s) c b = (o, u, c') ->
    let lower := with_store u (sto s) in
    Hash H lower = Hash H u /\
    ((exists a, array 20 a /\ tree_get_account u a <> tree_get_account s a) ->
      Hash H lower <> Hash H s \/
      exists E E' p1 p2, reach H s E /\ reach H u E' /\ is_node (by_path E') p1 /\ is_node (by_path E) p2 /\
         merkle_bytes H (by_path E') p1 <> merkle_bytes H (by_path E) p2 /\
         H (merkle_bytes H (by_path E') p1) = H (merkle_bytes H (by_path E) p2)).
Proof.
  intros H oob s c b o u c' HH Hr Hb E lower.
  destruct (areach_holds H oob s c HH Hr) as ((M & HM) & _).
  assert (HMo : tree_holds H (open_overlay s) M) by (split; [apply reach_open, HM|apply HM]).
  pose proof (push_run H oob (open_overlay s) c M b HH HMo Hb) as G. rewrite E in G.
  destruct G as (M' & hist & _ & HM' & Hk & Er).
  destruct (run_reach H hist _ _ (proj1 HMo) Hk) as (u' & Eu' & Ru). rewrite Er in Eu'. injection Eu' as <-.
  destruct (C25_lower_root_refuted H s _ hist u (proj1 HM) Hk Er) as (_ & Eh & _ & Hne).
  split; [exact Eh|]. intros (a & Ha & Hd).
  destruct Hne as [Hx|(p1 & p2 & Hx)].
  - intros x. apply (HH x).
  - exists a. split; [exact Ha|]. intros Ee. apply Hd. unfold tree_get_account, GetAccount. rewrite Ee. reflexivity.
  - left. exact Hx.
  - right. exists (enc_ledger M), (foldl spec_put (enc_ledger M) hist), p1, p2. split; [apply HM|]. split; [exact Ru|exact Hx].
Qed.
Print Assumptions C95_root_refuted.

(** C95, the other half: a trial that is kept.  Pushing on the overlay and
    flushing it (in any order) gives the outcome, the accounts and the root hash
    of pushing directly. *)
Theorem C95_commit :
  forall H oob s c b o u c' o2 d c2, hash_fn H -> areach H oob s c -> block_ok b ->
    tree_Push H oob (open_overlay s) c b = (o, u, c') ->
    tree_Push H oob s c b = (o2, d, c2) ->
    o = o2 /\ c' = c2 /\
    exists df, sto u = OverlayStore (sto s) (Some df) /\
    forall order, order ≡ₚ map_to_list df ->
    exists lower', Flush order (sto u) = Ok (OverlayStore lower' (Some ∅)) /\
      let kept := with_store u lower' in
      Hash H kept = Hash H d /\ forall a, array 20 a -> tree_get_account kept a = tree_get_account d a.
Proof.
  intros H oob s c b o u c' o2 d c2 HH Hr Hb E E2.
  destruct (areach_holds H oob s c HH Hr) as ((M & HM) & _).
  assert (HMo : tree_holds H (open_overlay s) M) by (split; [apply reach_open, HM|apply HM]).
  pose proof (push_run H oob (open_overlay s) c M b HH HMo Hb) as G. rewrite E in G.
  destruct G as (M' & hist & EL & HM' & Hk & Er).
  pose proof (push_run H oob s c M b HH HM Hb) as G. rewrite E2 in G. destruct G as (M2 & hist2 & EL2 & HM2 & _).
  rewrite EL in EL2. injection EL2 as <- <- <-. split; [reflexivity|]. split; [reflexivity|].
  destruct (run_reach H hist _ _ (proj1 HM) Hk) as (d' & Ed' & _).
  destruct (C26_overlay_tree_correct H s _ hist u d' (proj1 HM) Hk Er Ed') as (_ & df & Es & Hf).
  exists df. split; [exact Es|]. intros order Hp. destruct (Hf order Hp) as (lower' & Ef & _).
  exists lower'. split; [exact Ef|]. cbv zeta.
  assert (Rk : tree_holds H (with_store u lower') M').
  { split; [|apply HM'].
    exact (reach_close H _ _ lower' (reach_flush H u _ _ df order _ (proj1 HM') Es Hp Ef) eq_refl). }
  split.
  - rewrite (C18_root_is_merkle_root H _ _ (proj1 Rk)), (C18_root_is_merkle_root H _ _ (proj1 HM2)). reflexivity.
  - intros a Ha. rewrite (tree_get H _ M' a Rk Ha), (tree_get H _ M' a HM2 Ha). reflexivity.
Qed.
Print Assumptions C95_commit.

(** A concrete case: a payment tried on an overlay and thrown away.  The payer's
    account reads as before, but the lower tree's root hash is that of the trial,
    for an accepted and for a refused block; and a later block with another miner
    then panics on the lower tree although a tree without the trial accepts it. *)
Definition trial_start : list (bytes * Account) := [(addr 1, ABasic 1000); (addr 2, ABasic 5)].
Definition trial_miner : bytes := repeat 9 20.
Definition other_miner : bytes := repeat 9 19 ++ [8].
Lemma other_miner_20 : array 20 other_miner.
Proof. split; [reflexivity|]. apply bytes_okb_spec. reflexivity. Qed.
Definition trial_block (miner : bytes) (txs : list Tx) : Block := AccountsProps.block_of 3 (body_of miner txs []).
Definition good_txs : list Tx := [pay 1 (addr 2) 10 1].
Definition bad_txs : list Tx := [pay 1 (addr 2) 10 1; pay 2 (addr 1) 100 0].
Lemma trial_block_ok miner txs : array 20 miner -> txs = good_txs \/ txs = bad_txs -> block_ok (trial_block miner txs).
Proof.
  intros Hm Ht. apply block_of_ok; [unfold PolicySpec.u32, WireSpec.u32; lia|]. apply body_of_ok; [exact Hm| | |constructor|reflexivity].
  - assert (Ha : forall i, array 20 (addr i)).
    { intros i. destruct (toy_hash_fn (key i)) as (Hl & Hok). split; [unfold addr; rewrite firstn_length, Hl; reflexivity|]. apply Forall_take, Hok. }
    destruct Ht as [-> | ->]; unfold good_txs, bad_txs; repeat (match goal with |- Forall _ (_ :: _) => constructor end; [apply pay_ok; [lia|apply Ha|unfold u64; lia|unfold u64; lia]|]); constructor.
  - destruct Ht as [-> | ->]; reflexivity.
Qed.
Theorem C95_example : forall oob,
  let s := state_of trial_start in
  let try txs := tree_Push toy_hash oob (open_overlay s) initial_cache (trial_block trial_miner txs) in
  let lower txs := with_store (snd (fst (try txs))) (sto s) in
  areach toy_hash oob s initial_cache /\
  block_ok (trial_block trial_miner good_txs) /\ block_ok (trial_block trial_miner bad_txs) /\ block_ok (trial_block other_miner good_txs) /\
  fst (fst (try good_txs)) = Ok tt /\ fst (fst (try bad_txs)) = Err (EOverspend 5 100) /\
  tree_get_account (snd (fst (try good_txs))) (addr 1) = Ok (ABasic 989) /\
  tree_get_account (snd (fst (try bad_txs))) (addr 1) = Ok (ABasic 989) /\
  tree_get_account (lower good_txs) (addr 1) = Ok (ABasic 1000) /\
  tree_get_account (lower bad_txs) (addr 1) = Ok (ABasic 1000) /\
  Hash toy_hash (lower good_txs) <> Hash toy_hash s /\ Hash toy_hash (lower bad_txs) <> Hash toy_hash s /\
  fst (fst (tree_Push toy_hash oob s initial_cache (trial_block other_miner good_txs))) = Ok tt /\
  fst (fst (tree_Push toy_hash oob (lower good_txs) initial_cache (trial_block other_miner good_txs))) = Panic.
Proof.
  intros oob. cbv zeta.
  assert (Hm : array 20 trial_miner) by (apply array_repeat; lia).
  split. { apply state_of_ok. constructor; [|constructor; [|constructor]]; (split; [split; [reflexivity|apply bytes_okb_spec; reflexivity]|cbn; unfold u64; lia]). }
  split; [apply trial_block_ok; auto|]. split; [apply trial_block_ok; auto|]. split; [apply trial_block_ok; [apply other_miner_20|auto]|].
  repeat match goal with |- _ /\ _ => split end; try (vm_compute; reflexivity); vm_compute; intros E; discriminate E.
Qed.
Print Assumptions C95_example.

(** Properties C124 and C125: what can be seen of a PutEntry while it is under way, and what
    is left of one that does not get to its end (tree/tree.go:42-210). *)
From Coq Require Import ZArith List Lia Bool.
From stdpp Require Import gmap list.
From Verif.Model Require Import Base Address Nibbles Tree TreeSteps.
From Verif.Spec Require Import AddressSpec TreeSpec TreeHistory StepSpec.
From Verif.Proofs Require Import BaseFacts NibblesFacts TreeSim TreeTrie TreeCanon TreeUpdate TreeHashes TreeReach TreeRoot TreeLocal
  StepFacts StepWalk StepRepair StepAgain StepRetry.
From Verif.Props Require Import TreeProps.
Open Scope Z_scope.

(** C124.  The step-by-step version is PutEntry: same outcome for every tree, key and value. *)
Theorem C124_same_result : forall H s k v, (t_PutEntry H s k v).2 = PutEntry H s k v.
Proof. exact t_PutEntry_2. Qed.
Print Assumptions C124_same_result.

(** C124.  The recorded states lead from the tree before the call to the tree after it, by
    single changes of the store or of a branch object. *)
Theorem C124_every_change : forall H s M k v, reach H s M -> addr20 k ->
  exists s' b, PutEntry H s k v = Ok (s', b) /\ walk s (t_PutEntry H s k v).1 s'.
Proof.
  intros H s M k v Hr Hk. pose proof (reach_inv H s M Hr) as Hi.
  destruct (inv_PutEntry H s M k v Hi Hk) as (s' & E & _). eexists s', _. split; [exact E|].
  pose proof Hi as (_ & _ & V & ((_ & Hf & _) & _) & _).
  apply (walks_PutEntry H s k v Hf (s', negb (bytes_eqb (default [] (M !! k)) v))). rewrite t_PutEntry_2. exact E.
Qed.
Print Assumptions C124_every_change.

(** C124.  After every single change the key written already reads as the new value and
    every other key reads as before the call. *)
Theorem C124_reads_during_write : forall H s M k v u, reach H s M -> addr20 k -> u ∈ (t_PutEntry H s k v).1 ->
  holds_entry u k v /\ (forall k', addr20 k' -> k' <> k -> GetEntry u k' = GetEntry s k').
Proof.
  intros H s M k v u Hr Hk Hu. pose proof (reach_inv H s M Hr) as Hi.
  pose proof (steps_read H s M k v Hi Hk) as HF. rewrite Forall_forall in HF. destruct (HF u Hu) as (Ho & Hn).
  split; [exact Hn|]. intros k' Hk' Hne. rewrite (Ho k' Hk' Hne), (inv_GetEntry H s M k' Hi Hk'). reflexivity.
Qed.
Print Assumptions C124_reads_during_write.

(** Storing one entry in an empty tree: five changes. *)
Example C124_example : forall H, reach H new_tree ∅ /\ addr20 k_zero /\ length (t_PutEntry H new_tree k_zero [1]).1 = 5%nat.
Proof.
  intros H. split; [constructor|]. split; [split; [reflexivity|]|vm_compute; reflexivity].
  unfold bytes_ok, k_zero. apply Forall_forall. intros x Hx. apply elem_of_list_In, repeat_spec in Hx. subst x. lia.
Qed.

(** C125, the part that holds.  A PutEntry that is stopped anywhere between the end of the
    update and the end of the hashing leaves a tree on which the next PutEntry, whatever it
    writes (the same again, another key, a deletion), leads to the root hash and the entries
    of a history in which the interrupted call had finished; and so do all later ones. *)
Theorem C125_hashing_resumed_partial : forall H s M k v s1 b u k' v' hist,
  reach H s M -> addr20 k -> updateEntry s k v = Ok (s1, b) ->
  u = s1 \/ u ∈ (t_updateHashes H tree_fuel s1 []).1 ->
  addr20 k' -> Forall (fun kv => addr20 kv.1) hist ->
  (exists s2, PutEntry H u k' v' = Ok (s2, negb (bytes_eqb (default [] (spec_put M (k, v) !! k')) v'))) /\
  exists s3, run H u ((k', v') :: hist) = Ok s3 /\
    Hash H s3 = Ok (merkle_root H (foldl spec_put M ((k, v) :: (k', v') :: hist))) /\
    forall a, addr20 a -> GetEntry s3 a = Ok (foldl spec_put M ((k, v) :: (k', v') :: hist) !! a).
Proof.
  intros H s M k v s1 b u k' v' hist Hr Hk E1 Hu Hk' Hh. pose proof (reach_inv H s M Hr) as Hi.
  pose proof (hashing_ready H s M k v s1 b u Hi Hk E1 Hu) as Hre.
  assert (Hm : keys20 (spec_put M (k, v))) by (apply keys20_put; [apply Hi|exact Hk]).
  destruct (ready_PutEntry H _ u k' v' Hm Hre Hk') as (s2 & E2 & Hi2). split; [exists s2; exact E2|].
  cbn [run foldl]. rewrite E2. cbn [bind]. apply (inv_run H hist s2 _ Hi2 Hh).
Qed.
Print Assumptions C125_hashing_resumed_partial.

(** C125, the other part that holds.  Wherever a PutEntry that stores a non-empty value is
    stopped, writing a different non-empty value to the same key goes through, and from there
    on everything is as if the interrupted call had never been made; so an interrupted write
    is repaired by writing some other value and then the wanted one. *)
Theorem C125_other_value_partial : forall H s M k v w u hist,
  reach H s M -> addr20 k -> v <> [] -> w <> [] -> w <> v -> u ∈ (t_PutEntry H s k v).1 ->
  Forall (fun kv => addr20 kv.1) hist ->
  (exists s2, PutEntry H u k w = Ok (s2, true)) /\
  exists s3, run H u ((k, w) :: hist) = Ok s3 /\
    Hash H s3 = Ok (merkle_root H (foldl spec_put M ((k, w) :: hist))) /\
    forall a, addr20 a -> GetEntry s3 a = Ok (foldl spec_put M ((k, w) :: hist) !! a).
Proof.
  intros H s M k v w u hist Hr Hk Hv Hw Hne Hu Hh. pose proof (reach_inv H s M Hr) as Hi.
  destruct (other_value H s M k v w u Hi Hk Hv Hw Hne Hu) as (s2 & E2 & Hi2). split; [exists s2; exact E2|].
  cbn [run foldl]. rewrite E2. cbn [bind]. apply (inv_run H hist s2 _ Hi2 Hh).
Qed.
Print Assumptions C125_other_value_partial.

(** The repair spelled out: another value, then the wanted one. *)
Theorem C125_repair_partial : forall H s M k v w u,
  reach H s M -> addr20 k -> v <> [] -> w <> [] -> w <> v -> u ∈ (t_PutEntry H s k v).1 ->
  exists s3, run H u [(k, w); (k, v)] = Ok s3 /\
    Hash H s3 = Ok (merkle_root H (spec_put M (k, v))) /\
    forall a, addr20 a -> GetEntry s3 a = Ok (spec_put M (k, v) !! a).
Proof.
  intros H s M k v w u Hr Hk Hv Hw Hne Hu.
  destruct (C125_other_value_partial H s M k v w u [(k, v)] Hr Hk Hv Hw Hne Hu) as (_ & s3 & E & Hh & Hg).
  { constructor; [exact Hk|constructor]. }
  assert (EM : foldl spec_put M [(k, w); (k, v)] = spec_put M (k, v)).
  { cbn [foldl]. unfold spec_put. destruct w as [|y w]; [contradiction|]. destruct v as [|x v]; [contradiction|]. cbn.
    apply insert_insert. }
  rewrite EM in Hh, Hg. exists s3. auto.
Qed.
Print Assumptions C125_repair_partial.

(** A case of it: the first recorded state of storing [1] in an empty tree (the one for which
    the plain retry below fails), repaired with [2] and then [1]. *)
Example C125_repair_example : forall H, reach H new_tree ∅ /\ addr20 k_zero /\ is_Some ((t_PutEntry H new_tree k_zero [1]).1 !! 0%nat).
Proof.
  intros H. split; [constructor|]. split; [apply (C124_example H)|]. apply lookup_lt_is_Some. 
  apply Nat.ltb_lt. vm_compute. reflexivity.
Qed.

(** The case is not empty: after the update of an empty tree, hashing makes two changes. *)
Example C125_example : forall H, exists s1, updateEntry new_tree k_zero [1] = Ok (s1, true) /\
  length (t_updateHashes H tree_fuel s1 []).1 = 2%nat /\ holds_entry s1 k_zero [1].
Proof.
  intros H. eexists. split; [vm_compute; reflexivity|]. split; [vm_compute; reflexivity|].
  exists (Some [1]). split; [vm_compute; reflexivity|reflexivity].
Qed.

(** What repeating does give, wherever the writing of a value was stopped: the call returns
    normally, reports no change, and all entries are as the first call would have left them. *)
Theorem C125_retry_entries_partial : forall H s M k v u,
  reach H s M -> addr20 k -> v <> [] -> u ∈ (t_PutEntry H s k v).1 ->
  exists s2, PutEntry H u k v = Ok (s2, false) /\
    forall a, addr20 a -> GetEntry s2 a = Ok (spec_put M (k, v) !! a).
Proof.
  intros H s M k v u Hr Hk Hv Hu. pose proof (reach_inv H s M Hr) as Hi.
  assert (Hread : forall a, addr20 a -> GetEntry u a = Ok (spec_put M (k, v) !! a)).
  { intros a Ha. destruct (C124_reads_during_write H s M k v u Hr Hk Hu) as ((o & Eo & Ho) & Hoth).
    unfold spec_put. cbn [fst snd]. destruct v as [|x v]; [contradiction|]. destruct (decide (a = k)) as [->|Hne].
    - rewrite lookup_insert. destruct o as [y|]; cbn in Ho; [subst y; exact Eo|discriminate].
    - rewrite lookup_insert_ne by congruence. rewrite (Hoth a Ha Hne). apply (inv_GetEntry H), Ha. exact Hi. }
  assert (Ev : spec_put M (k, v) !! k = Some v).
  { unfold spec_put. cbn [fst snd]. destruct v; [contradiction|]. apply lookup_insert. }
  assert (Hx : u ∈ (t_updateEntry s k v).1 \/ exists s1 b, updateEntry s k v = Ok (s1, b) /\ u ∈ (t_updateHashes H tree_fuel s1 []).1).
  { unfold t_PutEntry, sbind in Hu. pose proof (t_updateEntry_2 s k v) as E2.
    destruct (t_updateEntry s k v) as (l & [(s1 & b)|e| |]); cbn [fst snd] in Hu, E2 |- *; [|left; exact Hu..].
    apply elem_of_app in Hu as [Hu|Hu]; [left; exact Hu|right]. exists s1, b. split; [symmetry; exact E2|].
    destruct (t_updateHashes H tree_fuel s1 []) as (l2 & [(s2 & h)|e| |]); cbn [fst snd] in Hu |- *; rewrite ?app_nil_r in Hu; exact Hu. }
  destruct Hx as [Hx|(s1 & b & E1 & Hx)].
  - pose proof (updating_okay H s M k v u Hi Hk Hv Hx) as Hok.
    destruct (okay_same H _ _ u k v Hok) as (s2 & E2 & Hg); [rewrite (Hread k Hk), Ev; reflexivity|].
    exists s2. split; [exact E2|]. intros a Ha. apply Hg, Hread, Ha.
  - destruct (resumed H s M k v s1 b u k v Hi Hk E1 (or_intror Hx) Hk) as (s2 & E2 & Hi2).
    { exists (Some v). split; [rewrite (Hread k Hk), Ev; reflexivity|reflexivity]. }
    exists s2. split; [exact E2|]. intros a Ha. apply (inv_GetEntry H), Ha. exact Hi2.
Qed.
Print Assumptions C125_retry_entries_partial.

(** C125 is false for stops before that.  Once the leaf is stored, repeating the call finds
    the value in place, returns false and leaves the root hash at that of the tree without
    the entry. *)
Theorem C125_retry_refuted : forall H, exists u s2 b1 b2,
  u ∈ (t_PutEntry H new_tree k_zero [1]).1 /\
  PutEntry H u k_zero [1] = Ok (s2, false) /\ GetEntry s2 k_zero = Ok (Some [1]) /\
  Hash H s2 = Ok (H b1) /\ Hash H new_tree = Ok (H b1) /\
  merkle_root H (spec_put ∅ (k_zero, [1])) = H b2 /\ b1 <> b2.
Proof.
  intros H.
  set (tr := (t_PutEntry H new_tree k_zero [1]).1). set (u := default new_tree (tr !! 0%nat)).
  set (t := match PutEntry H new_tree k_zero [1] with Ok (t, _) => t | _ => new_tree end).
  set (s2 := match PutEntry H u k_zero [1] with Ok (t, _) => t | _ => new_tree end).
  assert (Eu : tr !! 0%nat = Some u).
  { assert (Hl : (0 <? length tr)%nat = true) by (vm_compute; reflexivity). apply Nat.ltb_lt in Hl.
    destruct (lookup_lt_is_Some_2 tr 0 Hl) as (x & Hx). unfold u. rewrite Hx. reflexivity. }
  assert (Et : PutEntry H new_tree k_zero [1] = Ok (t, true)) by (vm_compute; reflexivity).
  assert (E2 : PutEntry H u k_zero [1] = Ok (s2, false)) by (vm_compute; reflexivity).
  assert (Hk : addr20 k_zero) by apply (C124_example H).
  assert (Hm : Hash H t = Ok (merkle_root H (spec_put ∅ (k_zero, [1])))).
  { apply C18_root_is_merkle_root. eapply reach_put; [constructor|exact Hk|exact Et]. }
  assert (Hroot : exists b2, Hash H t = Ok (H b2) /\ [0; 0; 0] <> b2).
  { eexists. split; [vm_compute; reflexivity|discriminate]. }
  destruct Hroot as (b2 & Hb2 & Hne). rewrite Hm in Hb2. injection Hb2 as Hb2.
  exists u, s2, [0; 0; 0], b2. split; [eapply elem_of_list_lookup_2, Eu|]. split; [exact E2|].
  split; [vm_compute; reflexivity|]. split; [vm_compute; reflexivity|]. split; [vm_compute; reflexivity|].
  split; [exact Hb2|exact Hne].
Qed.
Print Assumptions C125_retry_refuted.

(** And a deletion stopped after the branch above the entry is removed makes a write to
    another entry, which can still be read, and a write of a value to the deleted key
    panic. *)
Definition k_last : bytes := repeat 0 19 ++ [1].
Theorem C125_neighbour_refuted : forall H, exists s u,
  run H new_tree [(k_zero, [1]); (k_last, [2])] = Ok s /\
  u ∈ (t_PutEntry H s k_zero []).1 /\
  GetEntry u k_last = Ok (Some [2]) /\ PutEntry H u k_last [3] = Panic /\
  PutEntry H u k_zero [3] = Panic.
Proof.
  intros H.
  set (s := match run H new_tree [(k_zero, [1]); (k_last, [2])] with Ok s => s | _ => new_tree end).
  set (tr := (t_PutEntry H s k_zero []).1). set (u := default new_tree (tr !! 2%nat)).
  assert (Es : run H new_tree [(k_zero, [1]); (k_last, [2])] = Ok s) by (vm_compute; reflexivity).
  assert (Eu : tr !! 2%nat = Some u).
  { assert (Hl : (2 <? length tr)%nat = true) by (vm_compute; reflexivity). apply Nat.ltb_lt in Hl.
    destruct (lookup_lt_is_Some_2 tr 2 Hl) as (x & Hx). unfold u. rewrite Hx. reflexivity. }
  exists s, u. split; [exact Es|]. split; [eapply elem_of_list_lookup_2, Eu|].
  split; [vm_compute; reflexivity|]. split; vm_compute; reflexivity.
Qed.
Print Assumptions C125_neighbour_refuted.

(** Deleting is no repair: after an insertion stopped when the leaf has just been stored,
    deleting the entry returns true, but leaves an entry with an empty value behind and a root
    hash that is not that of the empty tree. *)
Theorem C125_delete_refuted : forall H, exists u s2 b1 b2,
  u ∈ (t_PutEntry H new_tree k_zero [1]).1 /\
  PutEntry H u k_zero [] = Ok (s2, true) /\ GetEntry s2 k_zero = Ok (Some []) /\
  Hash H s2 = Ok (H b2) /\ Hash H new_tree = Ok (H b1) /\ b1 <> b2.
Proof.
  intros H.
  set (tr := (t_PutEntry H new_tree k_zero [1]).1). set (u := default new_tree (tr !! 0%nat)).
  set (s2 := match PutEntry H u k_zero [] with Ok (t, _) => t | _ => new_tree end).
  assert (Eu : tr !! 0%nat = Some u).
  { assert (Hl : (0 <? length tr)%nat = true) by (vm_compute; reflexivity). apply Nat.ltb_lt in Hl.
    destruct (lookup_lt_is_Some_2 tr 0 Hl) as (x & Hx). unfold u. rewrite Hx. reflexivity. }
  assert (E2 : PutEntry H u k_zero [] = Ok (s2, true)) by (vm_compute; reflexivity).
  assert (Hroot : exists b2, Hash H s2 = Ok (H b2) /\ [0; 0; 0] <> b2).
  { eexists. split; [vm_compute; reflexivity|discriminate]. }
  destruct Hroot as (b2 & Hb2 & Hne). exists u, s2, [0; 0; 0], b2.
  split; [eapply elem_of_list_lookup_2, Eu|]. split; [exact E2|]. split; [vm_compute; reflexivity|].
  split; [exact Hb2|]. split; [vm_compute; reflexivity|exact Hne].
Qed.
Print Assumptions C125_delete_refuted.

(** C133, the part that holds.  While a PutEntry that stores a value is under way, Hash
    returns normally on the tree after every single change. *)
Theorem C133_hash_returns_partial : forall H s M k v u,
  reach H s M -> addr20 k -> v <> [] -> u ∈ (t_PutEntry H s k v).1 -> exists h, Hash H u = Ok h.
Proof.
  intros H s M k v u Hr Hk Hv Hu. pose proof (reach_inv H s M Hr) as Hi.
  assert (Hx : u ∈ (t_updateEntry s k v).1 \/ exists s1 b, updateEntry s k v = Ok (s1, b) /\ u ∈ (t_updateHashes H tree_fuel s1 []).1).
  { unfold t_PutEntry, sbind in Hu. pose proof (t_updateEntry_2 s k v) as E2.
    destruct (t_updateEntry s k v) as (l & [(s1 & b)|e| |]); cbn [fst snd] in Hu, E2 |- *; [|left; exact Hu..].
    apply elem_of_app in Hu as [Hu|Hu]; [left; exact Hu|right]. exists s1, b. split; [symmetry; exact E2|].
    destruct (t_updateHashes H tree_fuel s1 []) as (l2 & [(s2 & h)|e| |]); cbn [fst snd] in Hu |- *; rewrite ?app_nil_r in Hu; exact Hu. }
  destruct Hx as [Hx|(s1 & b & E1 & Hx)].
  - destruct (updating_okay H s M k v u Hi Hk Hv Hx) as (_ & Hsim & _ & _ & HL & HR). apply (linked_Hash H u Hsim HL HR).
  - assert (Hm : keys20 (spec_put M (k, v))) by (apply keys20_put; [apply Hi|exact Hk]).
    apply (ready_Hash H _ u (keys20_good _ Hm)). apply (hashing_ready H s M k v s1 b u Hi Hk E1). right. exact Hx.
Qed.
Print Assumptions C133_hash_returns_partial.
Example C133_example : forall H, reach H new_tree ∅ /\ addr20 k_zero /\ length (t_PutEntry H new_tree k_zero [1]).1 = 5%nat.
Proof. exact C124_example. Qed.

(** C133 is false otherwise: storing the first entry passes through a tree whose root hash is
    the hash of neither the bytes of the old root node nor those of the new one (the new
    root's bytes end in the hash of the leaf, [leaf], which is not all zero for any hash
    function in use). *)
Theorem C133_third_hash_refuted : forall H, exists u t b0 b1 b2 leaf,
  u ∈ (t_PutEntry H new_tree k_zero [1]).1 /\ PutEntry H new_tree k_zero [1] = Ok (t, true) /\
  Hash H new_tree = Ok (H b0) /\ Hash H u = Ok (H b1) /\ Hash H t = Ok (H b2) /\
  b1 <> b0 /\ (H leaf <> repeat 0 32 -> b1 <> b2).
Proof.
  intros H.
  set (tr := (t_PutEntry H new_tree k_zero [1]).1). set (u := default new_tree (tr !! 1%nat)).
  set (t := match PutEntry H new_tree k_zero [1] with Ok (t, _) => t | _ => new_tree end).
  assert (Eu : tr !! 1%nat = Some u).
  { assert (Hl : (1 <? length tr)%nat = true) by (vm_compute; reflexivity). apply Nat.ltb_lt in Hl.
    destruct (lookup_lt_is_Some_2 tr 1 Hl) as (x & Hx). unfold u. rewrite Hx. reflexivity. }
  set (leaf := [255; 40] ++ repeat 48 40 ++ [1]).
  exists u, t, [0; 0; 0], ([0; 0; 1; 40] ++ repeat 48 40 ++ repeat 0 32), ([0; 0; 1; 40] ++ repeat 48 40 ++ H leaf ++ []), leaf.
  split; [eapply elem_of_list_lookup_2, Eu|]. split; [vm_compute; reflexivity|]. split; [vm_compute; reflexivity|].
  split; [vm_compute; reflexivity|]. split; [vm_compute; reflexivity|]. split; [discriminate|].
  intros Hne E. rewrite app_nil_r in E. apply app_inv_head, app_inv_head in E. congruence.
Qed.
Print Assumptions C133_third_hash_refuted.

(** Properties C106 and C107: block exports (scripts/export_blocks.py) and their
    replay (cmd/gimiq/main.go). *)
From Coq Require Import ZArith List Lia Bool.
From stdpp Require Import list numbers list_numbers gmap.
From Verif.Model Require Import Base Wire Account Policy Tree Accounts Genesis BlockExport.
From Verif.Spec Require Import AddressSpec TreeSpec TreeHistory AccountSpec AccountsSpec GenesisSpec ExportSpec.
From Verif.Props Require Import GenesisProps.
Open Scope Z_scope.

Lemma digit_hexchar n : 0 <= n < 16 -> py_digit (hexchar n) = Some n /\ py_space (hexchar n) = false.
Proof.
  intros Hn. unfold hexchar, py_digit, py_space. destruct (Z.ltb_spec n 10).
  - rewrite (proj2 (Z.leb_le _ _)), (proj2 (Z.leb_le _ _)) by lia. cbn [andb]. split; [f_equal; lia|].
    rewrite (proj2 (Z.eqb_neq _ _)), (proj2 (Z.leb_gt (48 + n) 13)) by lia. rewrite andb_false_r. reflexivity.
  - rewrite (proj2 (Z.leb_gt (87 + n) 57)) by lia. rewrite andb_false_r.
    rewrite (proj2 (Z.leb_le _ _)), (proj2 (Z.leb_le _ _)) by lia. cbn [andb]. split; [f_equal; lia|].
    rewrite (proj2 (Z.eqb_neq _ _)), (proj2 (Z.leb_gt (87 + n) 13)) by lia. rewrite andb_false_r. reflexivity.
Qed.
Lemma fromhex_hex_text b : bytes_ok b -> fromhex (hex_text b) = Some b.
Proof.
  induction 1 as [|x b Hx _ IH]; [reflexivity|]. unfold is_byte in Hx.
  change (hex_text (x :: b)) with (hexchar (x / 16) :: hexchar (x mod 16) :: hex_text b). cbn [fromhex].
  assert (0 <= x / 16 < 16) by (split; [apply Z.div_pos; lia|apply Z.div_lt_upper_bound; lia]).
  pose proof (Z.mod_pos_bound x 16 ltac:(lia)).
  destruct (digit_hexchar (x / 16)) as (-> & ->); [lia|]. destruct (digit_hexchar (x mod 16)) as (-> & _); [lia|].
  rewrite IH. do 2 f_equal. pose proof (Z.div_mod x 16 ltac:(lia)). lia.
Qed.

Lemma files_app a b : files (a ++ b) = files a ++ files b.
Proof. unfold files. rewrite map_app, concat_app. reflexivity. Qed.
Lemma requests_app a b : requests (a ++ b) = requests a ++ requests b.
Proof. unfold requests. rewrite map_app, concat_app. reflexivity. Qed.
Lemma seqZ_nil_inv m n : seqZ m n = [] -> n <= 0.
Proof. intros E. apply (f_equal List.length) in E. rewrite seqZ_length in E. cbn in E. lia. Qed.

(** One turn of the loop. *)
Lemma loop_step fuel server batch to start :
  export_loop (S fuel) server batch to start =
  let stop := Z.min (start + batch) to in
  let ids := seqZ start (stop - start) in
  if decide (stop - start <= 0) then ([], Done) else
  match server ids with
  | None => ([Requested ids], Raised)
  | Some body => let '(ev, ok) := add_blocks body in
      if ok then let '(rest, e) := export_loop fuel server batch to stop in (Requested ids :: ev ++ rest, e)
      else (Requested ids :: ev, Raised)
  end.
Proof.
  cbn [export_loop]. cbv zeta. case_decide as Hd; [rewrite seqZ_nil by lia; reflexivity|].
  destruct (seqZ start _) as [|i ids] eqn:E; [apply seqZ_nil_inv in E; lia|reflexivity].
Qed.

Lemma fromhex_chars text : forall b, fromhex text = Some b ->
  Forall (fun c => 48 <= c <= 57 \/ 65 <= c <= 70 \/ 97 <= c <= 102 \/ 9 <= c <= 13 \/ c = 32) text.
Proof.
  assert (D : forall c d, py_digit c = Some d -> 48 <= c <= 57 \/ 65 <= c <= 70 \/ 97 <= c <= 102).
  { intros c d. unfold py_digit. destruct ((48 <=? c) && (c <=? 57)) eqn:E1; [apply andb_true_iff in E1; lia|]. destruct ((97 <=? c) && (c <=? 102)) eqn:E2; [apply andb_true_iff in E2; lia|].
    destruct ((65 <=? c) && (c <=? 70)) eqn:E3; [apply andb_true_iff in E3; lia|intros X; discriminate X]. }
  induction text as [text IH] using (induction_ltof1 _ (@List.length Z)). unfold ltof in IH. intros b E. destruct text as [|c text]; [constructor|]. cbn [fromhex] in E.
  destruct (py_space c) eqn:Es.
  - constructor; [unfold py_space in Es; apply orb_true_iff in Es as [Es|Es]; [lia|apply andb_true_iff in Es; lia]|]. eapply IH; [cbn; lia|exact E].
  - destruct (py_digit c) as [hi|] eqn:E1; [|discriminate E]. destruct text as [|c' text]; [discriminate E|]. destruct (py_digit c') as [lo|] eqn:E2; [|discriminate E].
    destruct (fromhex text) as [r|] eqn:E3; [|discriminate E]. apply D in E1, E2. constructor; [tauto|]. constructor; [tauto|]. eapply IH; [cbn; lia|exact E3].
Qed.
Lemma fromhex_garbled text : garbled text -> fromhex text = None.
Proof.
  intros (c & Hc & Hn). destruct (fromhex text) as [b|] eqn:E; [|reflexivity]. apply fromhex_chars in E. rewrite Forall_forall in E.
  destruct Hn. apply E, elem_of_list_In, Hc.
Qed.
Section Chain.
  Variable chain : Z -> bytes.
  Hypothesis chain_ok : forall n, bytes_ok (chain n).

  Lemma add_right ids : add_blocks (map (right_answer chain) ids) = (map (fun i => Added i (chain i)) ids, true).
  Proof.
    induction ids as [|i ids IH]; [reflexivity|]. cbn [map add_blocks]. unfold right_answer at 1.
    rewrite fromhex_hex_text, IH by apply chain_ok. reflexivity.
  Qed.
  Lemma files_added ids : files (map (fun i => Added i (chain i)) ids) = map (fun i => (i, chain i)) ids.
  Proof. induction ids as [|i ids IH]; [reflexivity|]. unfold files in *. cbn. rewrite IH. reflexivity. Qed.
  Lemma requests_added ids : requests (map (fun i => Added i (chain i)) ids) = [].
  Proof. induction ids as [|i ids IH]; [reflexivity|]. unfold requests in *. cbn. exact IH. Qed.
  Lemma loop_any server batch to : answers chain server -> 1 <= batch ->
    forall fuel start, (Z.to_nat (to - start) < fuel)%nat ->
    exists ev, export_loop fuel server batch to start = (ev, Done) /\
      files ev ≡ₚ blocks_from chain start (to - start) /\
      concat (requests ev) = seqZ start (to - start) /\
      Forall (fun ids => 1 <= Z.of_nat (length ids) <= batch) (requests ev).
  Proof.
    intros Ha Hb. induction fuel as [|fuel IH]; intros start Hf; [lia|]. rewrite loop_step. cbv zeta. case_decide as Hd.
    - exists []. unfold blocks_from. rewrite seqZ_nil by lia. split; [reflexivity|]. split; [reflexivity|]. split; [reflexivity|constructor].
    - set (stop := Z.min (start + batch) to) in *. destruct (Ha (seqZ start (stop - start))) as (ids' & Hp & ->). rewrite add_right.
      destruct (IH stop) as (ev & -> & Hfi & Hre & Hba); [lia|]. eexists. split; [reflexivity|].
      assert (Es : seqZ start (to - start) = seqZ start (stop - start) ++ seqZ stop (to - stop)).
      { replace (to - start) with ((stop - start) + (to - stop)) by lia. rewrite seqZ_app by lia. do 2 f_equal. lia. }
      change (Requested ?i :: ?l) with ([Requested i] ++ l). rewrite !files_app, !requests_app, files_added, requests_added.
      cbn [app]. unfold blocks_from in *. rewrite Es, map_app, Hfi. split; [rewrite Hp; reflexivity|]. split.
      + change (requests [Requested ?i]) with [i]. cbn. rewrite Hre. reflexivity.
      + change (requests [Requested ?i]) with [i]. cbn. constructor; [|exact Hba]. rewrite seqZ_length. lia.
  Qed.

  Lemma loop_fail server batch to : may_fail chain server -> 1 <= batch ->
    forall fuel start, (Z.to_nat (to - start) < fuel)%nat ->
    exists ev e n, export_loop fuel server batch to start = (ev, e) /\ 0 <= n <= Z.max 0 (to - start) /\
      files ev = blocks_from chain start n /\
      (e = Done /\ n = Z.max 0 (to - start) \/ e = Raised /\ n < to - start).
  Proof.
    intros Ha Hb. induction fuel as [|fuel IH]; intros start Hf; [lia|]. rewrite loop_step. cbv zeta. case_decide as Hd.
    - exists [], Done, 0. unfold blocks_from. rewrite seqZ_nil by lia. split; [reflexivity|]. split; [lia|]. split; [reflexivity|]. left. split; [reflexivity|lia].
    - set (stop := Z.min (start + batch) to) in *. destruct (Ha (seqZ start (stop - start))) as [-> | [-> | (before & i & text & after & rest & Eids & Hg & ->)]].
      + exists [Requested (seqZ start (stop - start))], Raised, 0. unfold blocks_from. split; [reflexivity|]. split; [lia|]. split; [reflexivity|]. right. split; [reflexivity|lia].
      + rewrite add_right. destruct (IH stop) as (ev & e & n & -> & Hn & Hfi & He); [lia|].
        eexists _, e, (stop - start + n). split; [reflexivity|]. split; [lia|]. split; [|destruct He as [(-> & ->)|(-> & Hl)]; [left|right]; (split; [reflexivity|lia])].
        change (Requested ?i :: ?l) with ([Requested i] ++ l). rewrite !files_app, files_added, Hfi. unfold blocks_from.
        change (files [Requested ?i]) with (@nil (Z * bytes)). cbn [app]. rewrite seqZ_app, map_app by lia. do 3 f_equal. lia.
      + assert (Ead : add_blocks (map (right_answer chain) before ++ (i, text) :: rest) = (map (fun i => Added i (chain i)) before, false)).
        { clear Eids. induction before as [|j before IHb]; cbn [map app add_blocks]; [rewrite (fromhex_garbled _ Hg); reflexivity|].
          unfold right_answer at 1. rewrite fromhex_hex_text, IHb by apply chain_ok. reflexivity. }
        rewrite Ead. eexists _, Raised, (Z.of_nat (length before)). split; [reflexivity|].
        pose proof (f_equal (@length Z) Eids) as El. rewrite seqZ_length, app_length in El. cbn [length] in El. split; [lia|]. split; [|right; split; [reflexivity|lia]].
        change (Requested ?i :: ?l) with ([Requested i] ++ l). rewrite files_app, files_added. change (files [Requested ?i]) with (@nil (Z * bytes)). cbn [app]. unfold blocks_from. f_equal.
        replace (stop - start) with (Z.of_nat (length before) + (stop - start - Z.of_nat (length before))) in Eids by lia.
        rewrite seqZ_app in Eids by lia. apply app_inj_1 in Eids as (Eb & _); [symmetry; exact Eb|]. rewrite seqZ_length. lia.
  Qed.
End Chain.

(** C106, what holds.  A server that answers in order: the archive holds the blocks
    [from] up to but without [to], each once and in order, whatever the batch size;
    each number is requested once, and no request exceeds the batch size. *)
Theorem C106_range_partial chain server batch from to :
  (forall n, bytes_ok (chain n)) -> answers_in_order chain server -> 1 <= batch ->
  exists ev, export server batch from to = (ev, Done) /\
    files ev = blocks_from chain from (to - from) /\
    concat (requests ev) = seqZ from (to - from) /\
    Forall (fun ids => 1 <= Z.of_nat (length ids) <= batch) (requests ev).
Proof.
  intros Hc Ha Hb. unfold export.
  assert (Ha2 : answers chain server). { intros ids. exists ids. split; [reflexivity|apply Ha]. }
  assert (Ha3 : may_fail chain server). { intros ids. right. left. apply Ha. }
  destruct (loop_any chain Hc server batch to Ha2 Hb (S (Z.to_nat (to - from))) from ltac:(lia)) as (ev & E & _ & Hr & Hl).
  destruct (loop_fail chain Hc server batch to Ha3 Hb (S (Z.to_nat (to - from))) from ltac:(lia)) as (ev' & e & n & E' & Hn & Hf & He).
  rewrite E in E'. injection E' as <- <-. destruct He as [(_ & ->)|(He & _)]; [|discriminate He].
  exists ev. split; [exact E|]. split; [|auto]. rewrite Hf. unfold blocks_from. destruct (Z.le_gt_cases 0 (to - from)).
  - rewrite Z.max_r by lia. reflexivity.
  - rewrite Z.max_l by lia. rewrite !seqZ_nil by lia. reflexivity.
Qed.
Print Assumptions C106_range_partial.

(** If the server answers in another order, the archive still holds the same blocks. *)
Theorem C106_any_order_partial chain server batch from to :
  (forall n, bytes_ok (chain n)) -> answers chain server -> 1 <= batch ->
  exists ev, export server batch from to = (ev, Done) /\ files ev ≡ₚ blocks_from chain from (to - from).
Proof.
  intros Hc Ha Hb. destruct (loop_any chain Hc server batch to Ha Hb (S (Z.to_nat (to - from))) from ltac:(lia)) as (ev & E & Hf & _). eauto.
Qed.
Print Assumptions C106_any_order_partial.

(** If a request fails or an answer is garbled, the program stops with an exception
    and the archive holds an initial part of the range. *)
Theorem C106_failures_partial chain server batch from to :
  (forall n, bytes_ok (chain n)) -> may_fail chain server -> 1 <= batch ->
  exists ev e n, export server batch from to = (ev, e) /\ 0 <= n <= Z.max 0 (to - from) /\ files ev = blocks_from chain from n /\
    (e = Done /\ n = Z.max 0 (to - from) \/ e = Raised /\ n < to - from).
Proof. intros Hc Ha Hb. apply loop_fail; auto. Qed.
Print Assumptions C106_failures_partial.

(** The last block asked for ("Last block to export") is never exported, nor
    requested, whatever the server and the batch size. *)
Theorem C106_last_refuted server batch from to :
  only_asked server ->
  let ev := fst (export server batch from to) in
  (forall ids n, In ids (requests ev) -> In n ids -> from <= n < to) /\
  (forall n b, In (n, b) (files ev) -> from <= n < to).
Proof.
  intros Ho. cbv zeta. unfold export. set (fuel := S (Z.to_nat (to - from))).
  cut (forall fuel start, from <= start -> let ev := fst (export_loop fuel server batch to start) in
    (forall ids n, In ids (requests ev) -> In n ids -> from <= n < to) /\ (forall n b, In (n, b) (files ev) -> from <= n < to)).
  { intros G. apply G. lia. }
  clear fuel. induction fuel as [|fuel IH]; intros start Hs; cbv zeta; [split; intros ? ? []|].
  rewrite loop_step. cbv zeta. case_decide as Hd; [split; intros ? ? []|]. set (stop := Z.min (start + batch) to) in *.
  assert (Hids : forall n, In n (seqZ start (stop - start)) -> from <= n < to).
  { intros n Hn. apply elem_of_list_In, elem_of_seqZ in Hn. lia. }
  assert (Hreq : forall ids n, In ids [seqZ start (stop - start)] -> In n ids -> from <= n < to).
  { intros ids n [<-|[]] Hn. apply Hids, Hn. }
  destruct (server _) as [body|] eqn:Es; [|cbn [fst]; split; [exact Hreq|intros ? ? []]].
  specialize (Ho _ _ Es). clear Es.
  assert (Hadd : requests (fst (add_blocks body)) = [] /\ forall n b, In (n, b) (files (fst (add_blocks body))) -> from <= n < to).
  { clear -Ho Hids. induction body as [|(i & r) body IH]; [split; [reflexivity|intros ? ? []]|]. cbn [add_blocks].
    destruct (fromhex r) as [b|]; [|split; [reflexivity|intros ? ? []]].
    destruct IH as (I1 & I2); [intros n r' Hn; eapply Ho; right; exact Hn|]. destruct (add_blocks body) as (ev & ok). cbn [fst] in *.
    split; [exact I1|]. intros n b' [E|Hn]; [|eapply I2; exact Hn]. injection E as <- _. apply Hids. eapply Ho. left. reflexivity. }
  destruct (add_blocks body) as (ev & ok). cbn [fst] in Hadd. destruct Hadd as (A1 & A2). destruct ok.
  - specialize (IH stop ltac:(lia)). destruct (export_loop fuel server batch to stop) as (rest & e). cbn [fst] in *. destruct IH as (I1 & I2).
    change (Requested ?i :: ?l) with ([Requested i] ++ l). rewrite !files_app, !requests_app, A1.
    change (requests [Requested ?i]) with [i]. change (files [Requested ?i]) with (@nil (Z * bytes)). cbn [app]. split.
    + intros ids n [<-|Hi] Hn; [apply Hids, Hn|eapply I1; eauto].
    + intros n b Hn. apply in_app_iff in Hn as [Hn|Hn]; [eapply A2|eapply I2]; exact Hn.
  - cbn [fst]. change (Requested ?i :: ?l) with ([Requested i] ++ l). rewrite !files_app, !requests_app, A1. split; [exact Hreq|exact A2].
Qed.
Print Assumptions C106_last_refuted.

(** Nor are the blocks in order if the server answers a batch in another order
    (which JSON-RPC allows; the program sorts a copy and drops it). *)
Theorem C106_order_refuted chain batch from to :
  (forall n, bytes_ok (chain n)) -> 2 <= batch -> from + 2 <= to ->
  exists server n b rest, answers chain server /\ files (fst (export server batch from to)) = (n, b) :: rest /\ from < n.
Proof.
  intros Hc Hb Hr. exists (fun ids => Some (map (right_answer chain) (rev ids))).
  unfold export. rewrite loop_step. cbv zeta. case_decide as Hd; [lia|]. set (stop := Z.min (from + batch) to) in *. rewrite add_right by exact Hc.
  destruct (export_loop _ _ _ _ _) as (rest & e). cbn [fst]. change (Requested ?i :: ?l) with ([Requested i] ++ l). rewrite !files_app.
  change (files [Requested ?i]) with (@nil (Z * bytes)). cbn [app]. rewrite files_added.
  replace (stop - from) with ((stop - from - 1) + 1) by lia. rewrite seqZ_app by lia. change (seqZ ?m 1) with [0 + m]. rewrite rev_app_distr. cbn [rev app map].
  eexists _, _, _. split; [|split; [reflexivity|lia]]. intros ids. exists (rev ids). split; [symmetry; apply Permutation_rev|reflexivity].
Qed.
Print Assumptions C106_order_refuted.

(** ** C107: replaying an export *)
(** The archive as the replay program reads it. *)
Definition archive_of (ev : list event) : list entry := map (fun nb => File (snd nb)) (files ev).

(** The program succeeds on an export exactly if the blocks [from + 1] to [to - 1]
    can be pushed, in order and each once, on the genesis state; it then reports
    [to - from - 1] blocks.  The first block exported is not looked at. *)
Theorem C107_replay_of_export_partial H oob blockBuf accountsBuf chain server batch from to n k s' c' :
  hash_fn H -> bytes_ok blockBuf -> bytes_ok accountsBuf -> (forall n, bytes_ok (chain n)) -> answers_in_order chain server -> 1 <= batch ->
  (gimiq H oob blockBuf accountsBuf (archive_of (fst (export server batch from to))) = (Ok (n, k), s', c') <->
   exists p s c bs, openProfile blockBuf accountsBuf = Ok p /\ InitAccounts H oob p new_tree initial_cache = (Ok tt, s, c) /\
     replayed H oob s c (map (fun i => File (chain i)) (seqZ (from + 1) (to - from - 1))) bs s' c' /\
     n = zlen bs /\ n = Z.max 0 (to - from - 1) /\ k = sum (map tx_count bs)).
Proof.
  intros HH Hb Ha Hc Hs Hba. destruct (C106_range_partial chain server batch from to Hc Hs Hba) as (ev & E & Hf & _). rewrite E. cbn [fst].
  assert (Earch : archive_of ev = map (fun i => File (chain i)) (seqZ from (to - from))).
  { unfold archive_of. rewrite Hf. unfold blocks_from. rewrite map_map. reflexivity. }
  assert (Etl : tl (archive_of ev) = map (fun i => File (chain i)) (seqZ (from + 1) (to - from - 1))).
  { rewrite Earch. destruct (Z.le_gt_cases (to - from) 0); [rewrite !seqZ_nil by lia; reflexivity|]. rewrite seqZ_cons by lia. cbn [map tl]. do 2 f_equal; lia. }
  assert (Hfile : Forall file_ok (archive_of ev)).
  { rewrite Earch. apply Forall_fmap, Forall_true. intros i. exact (Hc i). }
  rewrite (C73_program H oob blockBuf accountsBuf (archive_of ev) n k s' c' HH Hb Ha Hfile). rewrite Etl. split.
  - intros (p & s & c & bs & E1 & E2 & E3 & -> & ->). exists p, s, c, bs. repeat (split; [first [assumption|reflexivity]|]). split; [|reflexivity].
    assert (L : forall l s c bs s' c', replayed H oob s c l bs s' c' -> length bs = length l).
    { induction 1; [reflexivity|]. cbn. f_equal. assumption. }
    pose proof (L _ _ _ _ _ _ E3) as El. rewrite map_length, seqZ_length in El. unfold zlen. rewrite El. lia.
  - intros (p & s & c & bs & E1 & E2 & E3 & E4 & _ & E5). exists p, s, c, bs. auto.
Qed.
Print Assumptions C107_replay_of_export_partial.

(** So an export of a chain from its genesis block to block [N] never replays to the
    state of block [N]: the replay succeeds or not, and ends in the same state,
    whatever block [N] is. *)
Theorem C107_last_block_refuted H oob blockBuf accountsBuf chain chain' server server' batch N :
  (forall n, bytes_ok (chain n)) -> (forall n, bytes_ok (chain' n)) ->
  answers_in_order chain server -> answers_in_order chain' server' -> 1 <= batch ->
  (forall n, n < N -> chain' n = chain n) ->
  gimiq H oob blockBuf accountsBuf (archive_of (fst (export server batch 1 N))) =
  gimiq H oob blockBuf accountsBuf (archive_of (fst (export server' batch 1 N))).
Proof.
  intros Hc Hc' Hs Hs' Hb Heq.
  destruct (C106_range_partial chain server batch 1 N Hc Hs Hb) as (ev & -> & Hf & _).
  destruct (C106_range_partial chain' server' batch 1 N Hc' Hs' Hb) as (ev' & -> & Hf' & _). cbn [fst]. f_equal.
  unfold archive_of. rewrite Hf, Hf'. f_equal. unfold blocks_from. apply map_ext_in. intros i Hi.
  apply elem_of_list_In, elem_of_seqZ in Hi. rewrite Heq by lia. reflexivity.
Qed.
Print Assumptions C107_last_block_refuted.

(** ** Examples *)
(** Seven blocks in batches of three, from a server that answers in order. *)
Definition tiny_chain (n : Z) : bytes := [n mod 256; 255].
Definition tiny_server (ids : list Z) : option (list (Z * bytes)) := Some (map (right_answer tiny_chain) ids).
Example C106_example :
  (forall n, bytes_ok (tiny_chain n)) /\ answers_in_order tiny_chain tiny_server /\ only_asked tiny_server /\
  (let '(ev, e) := export tiny_server 3 1 8 in
   e = Done /\ requests ev = [[1; 2; 3]; [4; 5; 6]; [7]] /\ files ev = [(1, [1; 255]); (2, [2; 255]); (3, [3; 255]); (4, [4; 255]); (5, [5; 255]); (6, [6; 255]); (7, [7; 255])]) /\
  fromhex [48; 102; 32; 10; 65; 49; 32] = Some [15; 161] /\ fromhex [48; 32; 102] = None /\ fromhex [48] = None.
Proof.
  split. { intros n. constructor; [unfold is_byte; pose proof (Z.mod_pos_bound n 256); lia|]. constructor; [unfold is_byte; lia|constructor]. }
  split; [intros ids; reflexivity|]. split.
  { intros ids body E n r Hn. injection E as <-. apply in_map_iff in Hn as (i & Ei & Hi). injection Ei as <- _. exact Hi. }
  split; [vm_compute; repeat split|]. repeat split.
Qed.
(** A chain of three blocks of which block 3 is junk: exported from 1 to 3 and
    replayed, block 2 is pushed and the junk not noticed. *)
Definition small_chain (n : Z) : bytes := if n =? 1 then small_file 100 1 [] else if n =? 2 then small_file 161 2 AccountsProps.transfers else [1].
Definition small_server (ids : list Z) : option (list (Z * bytes)) := Some (map (right_answer small_chain) ids).
Lemma skips_first H oob a b e e' l : gimiq H oob a b (e :: l) = gimiq H oob a b (e' :: l).
Proof. reflexivity. Qed.
Example C107_example :
  (forall n, bytes_ok (small_chain n)) /\ answers_in_order small_chain small_server /\
  let '(o, _, _) := gimiq AccountsProps.toy_hash (fun _ => 0) (small_file 100 1 []) (accounts_bytes small_list) (archive_of (fst (export small_server 100 1 3))) in o = Ok (1, 3).
Proof.
  assert (Hb : forall n, bytes_ok (small_chain n)).
  { intros n. unfold small_chain. destruct (n =? 1); [|destruct (n =? 2)]; apply BaseFacts.bytes_okb_spec; vm_compute; reflexivity. }
  split; [exact Hb|]. split; [intros ids; reflexivity|].
  destruct (C106_range_partial small_chain small_server 100 1 3 Hb ltac:(intros ids; reflexivity) ltac:(lia)) as (ev & -> & Hf & _). cbn [fst].
  assert (E : archive_of ev = [File (small_chain 1); File (small_chain 2)]) by (unfold archive_of; rewrite Hf; reflexivity). rewrite E.
  destruct C73_example as (_ & G & _).
  change (small_chain 2) with (small_file 161 2 AccountsProps.transfers). rewrite (skips_first _ _ _ _ _ Broken).
  destruct (gimiq _ _ _ _ _) as ((o & s) & c). apply G.
Qed.

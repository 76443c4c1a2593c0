(** C128: what the text of a refusal tells. *)
From Coq Require Import ZArith List Lia Bool String.
From stdpp Require Import gmap list.
From Verif.Model Require Import Base Address Nibbles Beserial Wire Policy Account Tree Accounts ErrorText.
From Verif.Spec Require Import AddressSpec TreeSpec TreeHistory PolicySpec BeserialSpec WireSpec AccountSpec AccountsSpec RulesSpec FaultSpec HexSpec TextSpec.
From Verif.Proofs Require Import BaseFacts NibblesFacts AccountFacts LedgerFacts PushFacts AccountsFacts RulesFacts ErrorFacts FaultFacts.
From Verif.Props Require Import AddressProps TreeProps WireProps AccountProps AccountsProps PushProps PartyProps FaultProps.
Open Scope Z_scope.
Open Scope list_scope.

Definition is_digit (c : Z) : Prop := 48 <= c <= 57.
Lemma digits10_digits n : forall z, 0 <= z -> Forall is_digit (digits10 n z).
Proof.
  induction n as [|n IH]; intros z Hz; cbn [digits10]; [constructor|]. destruct (Z.ltb_spec z 10).
  - constructor; [unfold is_digit; lia|constructor].
  - pose proof (Z.mod_pos_bound z 10 ltac:(lia)). apply Forall_app. split; [apply IH, Z.div_pos; lia|].
    constructor; [unfold is_digit; lia|constructor].
Qed.
Lemma decimal_value_snoc s c : forall n, decimal_value (s ++ [c]) n =
  match decimal_value s n with Some m => if (48 <=? c) && (c <=? 57) then Some (10 * m + (c - 48)) else None | None => None end.
Proof. induction s as [|d s IH]; intros n; cbn [app decimal_value]; [reflexivity|]. destruct ((48 <=? d) && (d <=? 57)); [apply IH|reflexivity]. Qed.
Lemma digits10_read n : forall z, 0 <= z < 10 ^ Z.of_nat n -> decimal_value (digits10 n z) 0 = Some z.
Proof.
  induction n as [|n IH]; intros z Hz; cbn [digits10].
  - change (10 ^ Z.of_nat 0) with 1 in Hz. cbn. f_equal. lia.
  - destruct (Z.ltb_spec z 10) as [Hlt|Hge].
    + cbn. destruct (Z.leb_spec 48 (48 + z)), (Z.leb_spec (48 + z) 57); try lia. cbn [andb]. f_equal. lia.
    + pose proof (Z.mod_pos_bound z 10 ltac:(lia)) as Hm. rewrite decimal_value_snoc, IH.
      * destruct (Z.leb_spec 48 (48 + z mod 10)), (Z.leb_spec (48 + z mod 10) 57); try lia. cbn [andb]. f_equal.
        pose proof (Z.div_mod z 10 ltac:(lia)). lia.
      * split; [apply Z.div_pos; lia|]. apply Z.div_lt_upper_bound; [lia|]. rewrite Nat2Z.inj_succ, Z.pow_succ_r in Hz by lia. lia.
Qed.
Lemma fmt_d_read z : u64 z -> read_decimal (fmt_d z) = Some z.
Proof.
  intros Hz. unfold u64 in Hz. assert (E : decimal_value (fmt_d z) 0 = Some z) by (apply digits10_read; lia).
  unfold read_decimal. destruct (fmt_d z) eqn:Ed; [|exact E]. exfalso. unfold fmt_d in Ed. cbn [digits10] in Ed.
  destruct (z <? 10); [discriminate|]. apply app_eq_nil in Ed as (_ & Ed). discriminate.
Qed.
Lemma fmt_d_inj a b : u64 a -> u64 b -> fmt_d a = fmt_d b -> a = b.
Proof. intros Ha Hb E. pose proof (fmt_d_read a Ha) as R. rewrite E, (fmt_d_read b Hb) in R. congruence. Qed.
Lemma fmt_d_digits z : u64 z -> Forall is_digit (fmt_d z).
Proof. intros Hz. apply digits10_digits. unfold u64 in Hz. lia. Qed.
(** Digits up to a space. *)
Lemma digits_split (a b x y : list Z) : Forall is_digit a -> Forall is_digit b -> a ++ 32 :: x = b ++ 32 :: y -> a = b /\ x = y.
Proof.
  revert b. induction a as [|c a IH]; intros b Ha Hb E; destruct b as [|d b]; cbn in E.
  - injection E as E. auto.
  - injection E as E _. subst. apply Forall_cons in Hb as (Hb & _). unfold is_digit in Hb. lia.
  - injection E as E _. subst. apply Forall_cons in Ha as (Ha & _). unfold is_digit in Ha. lia.
  - injection E as -> E. apply Forall_cons in Ha as (_ & Ha). apply Forall_cons in Hb as (_ & Hb). destruct (IH b Ha Hb E) as (-> & ->). auto.
Qed.
(** Hexadecimal addresses. *)
Lemma fmt_x1_read n : 0 <= n < 16 -> hex_value (fmt_x1 n) = Some n.
Proof.
  intros Hn. unfold fmt_x1, hex_value. destruct (Z.ltb_spec n 10).
  - destruct (Z.leb_spec 48 (48 + n)), (Z.leb_spec (48 + n) 57); try lia. cbn [andb]. f_equal. lia.
  - destruct (Z.leb_spec 48 (87 + n)), (Z.leb_spec (87 + n) 57); try lia. cbn [andb].
    destruct (Z.leb_spec 97 (87 + n)), (Z.leb_spec (87 + n) 102); try lia. cbn [andb]. f_equal. lia.
Qed.
Lemma fmt_x_read a : bytes_ok a -> read_hex (fmt_x a) = Some a.
Proof.
  induction 1 as [|b a Hb _ IH]; [reflexivity|]. unfold is_byte in Hb. unfold fmt_x. cbn [flat_map app read_hex]. fold (fmt_x a).
  pose proof (Z.mod_pos_bound b 16 ltac:(lia)) as Hm. pose proof (Z.div_mod b 16 ltac:(lia)) as Hd.
  assert (H1 : 0 <= b / 16 < 16) by (split; [apply Z.div_pos; lia|apply Z.div_lt_upper_bound; lia]).
  rewrite !fmt_x1_read, IH by lia. do 2 f_equal. lia.
Qed.
Lemma fmt_x_length a : length (fmt_x a) = (2 * length a)%nat.
Proof. induction a as [|b a IH]; [reflexivity|]. unfold fmt_x. cbn [flat_map app length]. fold (fmt_x a). lia. Qed.
Lemma fmt_x_inj a b : bytes_ok a -> bytes_ok b -> fmt_x a = fmt_x b -> a = b.
Proof. intros Ha Hb E. pose proof (fmt_x_read a Ha) as R. rewrite E, (fmt_x_read b Hb) in R. congruence. Qed.

(** What the fields of an error can be. *)
Definition fields_ok (e : error) : Prop :=
  match e with
  | EOverspend a s => u64 a /\ u64 s
  | EAccountTypeMismatch x g => u8 x /\ u8 g
  | EPruneMissing a | EPruneAltered a | ECreateBasic a => array 20 a
  | ECreateBadType a n => array 20 a /\ u8 n
  | EPruneEarly l => Forall (array 20) l
  | _ => True
  end.
Lemma u8_64 z : u8 z -> u64 z.
Proof. unfold u8, u64. lia. Qed.
Lemma prune_text_inj a b x y : array 20 a -> array 20 b -> prune_text a x = prune_text b y -> a = b /\ x = y.
Proof.
  intros Ha Hb E. unfold prune_text in E. apply app_inv_head in E.
  apply app_inj_1 in E as (E1 & E2); [|rewrite (proj2 (C07_encode_well_formed a Ha)), (proj2 (C07_encode_well_formed b Hb)); reflexivity].
  split; [apply C07_encode_injective; assumption|]. apply app_inv_head in E2. exact E2.
Qed.
Lemma recipient_text_inj a b x y : array 20 a -> array 20 b -> recipient_text a x = recipient_text b y -> a = b /\ x = y.
Proof.
  intros (La & Ha) (Lb & Hb) E. unfold recipient_text, fmt_x_ptr in E. apply app_inv_head in E. cbn [app] in E. injection E as E.
  apply app_inj_1 in E as (E1 & E2); [|rewrite !fmt_x_length, La, Lb; reflexivity].
  split; [apply fmt_x_inj; assumption|]. injection E2 as E2. exact E2.
Qed.
Lemma texts_differ e e' s s' : fields_ok e -> fields_ok e' -> error_text e s -> error_text e' s' -> s = s' -> same_fault e e'.
Proof.
  intros He He' T T'. revert He He'. unfold same_fault. destruct T, T'; cbn [fields_ok]; intros He He' E; try (left; reflexivity);
    try (exfalso; unfold prune_text, recipient_text in E; cbn -[Encode fmt_d fmt_x] in E; discriminate E).
  all: try (rewrite Forall_forall in He); try (rewrite Forall_forall in He').
  all: try (apply prune_text_inj in E as (E1 & E2); [|first [exact He|apply He, elem_of_list_In; assumption]|first [exact He'|apply He', elem_of_list_In; assumption]];
    first [discriminate E2|subst; left; reflexivity|subst; right; do 3 eexists; split; [reflexivity|split; [reflexivity|split; eassumption]]]).
  all: try (apply recipient_text_inj in E as (E1 & E2); [|first [exact He|exact (proj1 He)]|first [exact He'|exact (proj1 He')]];
    first [discriminate E2|subst; left; reflexivity|idtac]).
  - left. destruct He, He'. apply app_inv_head in E. apply digits_split in E as (E1 & E2); try (apply fmt_d_digits; assumption).
    injection E2 as E2. f_equal; apply fmt_d_inj; assumption.
  - left. destruct He as (H1 & H2), He' as (H3 & H4). apply u8_64 in H1, H2, H3, H4. apply app_inv_head in E. apply digits_split in E as (E1 & E2); try (apply fmt_d_digits; assumption).
    injection E2 as E2. f_equal; apply fmt_d_inj; assumption.
  - subst. left. apply app_inv_head in E2. f_equal. apply fmt_d_inj; [apply u8_64; apply He|apply u8_64; apply He'|exact E2].
Qed.

(** The fields of the errors of Push.  Go's conversion of an out-of-range float to uint64 gives some uint64. *)
Lemma unlocked_64 oob c h : (forall x, u64 (oob x)) -> account_ok (AVesting c) -> u64 (amountUnlocked oob c h).
Proof.
  intros Ho Hc. unfold amountUnlocked. destruct (_ <=? _); [unfold u64; lia|]. destruct (_ || _); [exact (balance_64 (AVesting c) Hc)|].
  unfold uint64_of_float. destruct (float_trunc _) as [n|]; [|apply Ho]. destruct (Z.leb_spec 0 n), (Z.ltb_spec n two64); cbn [andb]; try apply Ho.
  unfold two64 in *. unfold u64. lia.
Qed.
Lemma debits_ok H M l a : ledger_ok M -> account_ok (after_debits H M l a).
Proof.
  intros HM. pose proof (acct_ok M a HM) as Hx. unfold after_debits. pose proof (Z.mod_pos_bound (Balance (acct M a) - charged H l (acct M a) a) (2 ^ 64) ltac:(lia)) as Hm.
  destruct (acct M a); cbn [with_balance account_ok v_value v_owner v_start v_step_blocks v_step_amount v_total h_value h_sender h_recipient h_hash h_count h_timeout h_total] in *; unfold u64 in *; tauto.
Qed.
Lemma type_8 x : u8 (AccountType x).
Proof. destruct x; unfold u8; cbn; lia. Qed.
Lemma listed_in l a : listed l a <> None -> exists p, p ∈ l /\ p_address p = a.
Proof.
  unfold listed. intros Hn. destruct (decide (Exists (fun p => p_address p = a) l)) as [He|Hno]; [apply Exists_exists in He as (p & Hp & E); eauto|]. exfalso. apply Hn. clear Hn.
  assert (G : forall r, foldl (fun r p => if decide (p_address p = a) then Some (p_account p) else r) r l = r); [|apply G].
  induction l as [|p l IH]; intros r; cbn [foldl]; [reflexivity|]. rewrite decide_False by (intros E; apply Hno; left; exact E).
  apply IH. intros Hq. apply Hno. right. exact Hq.
Qed.
Lemma decode_fields e : decode_error e -> fields_ok e /\ forall s, ~ error_text e s.
Proof.
  unfold decode_error. intros Hd. repeat (apply elem_of_cons in Hd as [->|Hd]; [split; [exact I|intros s T; inversion T]|]). inversion Hd.
Qed.
(** An error without fields that has a text, or of package beserial. *)
Definition plain_error (e : error) : Prop := decode_error e \/ fields_ok e /\ exists s, error_text e s.
Lemma plain_fields e : plain_error e -> fields_ok e /\ (decode_error e \/ exists s, error_text e s).
Proof. intros [Hd|(Hf & Ht)]; [split; [apply decode_fields, Hd|left; exact Hd]|split; [exact Hf|right; exact Ht]]. Qed.
Lemma proof_plain H x d h e : proof_fault H x d h e -> plain_error e.
Proof.
  unfold proof_fault, plain_error.
  assert (G : forall P Q : Prop, (P -> fields_ok e /\ exists s, error_text e s) -> (Q -> decode_error e) -> P \/ Q -> decode_error e \/ fields_ok e /\ exists s, error_text e s) by tauto.
  assert (S1 : e = EBadSignature -> fields_ok e /\ exists s, error_text e s) by (intros ->; split; [exact I|eexists; constructor]).
  assert (S2 : e = EMissingProof -> fields_ok e /\ exists s, error_text e s) by (intros ->; split; [exact I|eexists; constructor]).
  assert (S3 : e = EHTLCExpired -> fields_ok e /\ exists s, error_text e s) by (intros ->; split; [exact I|eexists; constructor]).
  assert (S4 : e = EHTLCNotExpired -> fields_ok e /\ exists s, error_text e s) by (intros ->; split; [exact I|eexists; constructor]).
  assert (S5 : e = EHTLCHash -> fields_ok e /\ exists s, error_text e s) by (intros ->; split; [exact I|eexists; constructor]).
  assert (S6 : e = EHTLCRecipientSig -> fields_ok e /\ exists s, error_text e s) by (intros ->; split; [exact I|eexists; constructor]).
  assert (S7 : e = EHTLCSenderSig -> fields_ok e /\ exists s, error_text e s) by (intros ->; split; [exact I|eexists; constructor]).
  assert (S8 : e = EHTLCProofType -> fields_ok e /\ exists s, error_text e s) by (intros ->; split; [exact I|eexists; apply (text_proof_type 0)]).
  destruct x as [v|c|k]; [intros []| |].
  - apply G; [intros (X & _); auto|intros (X & _); exact X].
  - destruct d as [|z d]; [auto|]. destruct z as [|z|z]; auto. destruct z as [z|z|]; [destruct z; auto|destruct z; auto|].
    + destruct (_ <=? _); [auto|]. apply G; [intros (X & _); auto|intros (X & _); exact X].
    + apply G; [|intros (X & _); exact X]. intros (p & rest & _ & _ & X). destruct (bool_decide _); [destruct X as (X & _)|]; auto.
    + destruct (_ <? _); [auto|]. apply G; [|intros (X & _); exact X]. intros (alg & depth & root & pre' & rest & _ & _ & _ & _ & _ & X).
      destruct (bool_decide _); [destruct X as (X & _)|]; auto.
Qed.
Lemma creation_plain y e : tx_ok (TExtended y) -> creation_refused y e -> plain_error e.
Proof.
  unfold creation_refused, plain_error. intros Hy. pose proof Hy as Hy'. cbn in Hy'. destruct (_ =? _); [intros ->; right; split; [|eexists; constructor]; cbn [fields_ok]; tauto|].
  destruct (_ =? _); [intros (-> & _); right; split; [exact I|eexists; constructor]|].
  destruct (_ =? _); [|intros ->; right; split; [|eexists; constructor]; cbn [fields_ok]; tauto].
  intros [(_ & Hd)|(_ & _ & ->)]; [left; exact Hd|right; split; [exact I|eexists; constructor]].
Qed.
Lemma push_fields H oob s c b e s' c' :
  hash_fn H -> (forall x, u64 (oob x)) -> areach H oob s c -> block_ok b -> tree_Push H oob s c b = (Err e, s', c') -> plain_error e.
Proof.
  intros HH Ho Hr Hb E. destruct (C52_ledger_exists H oob s c HH Hr) as (M & HL & _).
  destruct (C94_names_a_fault H oob s c M b e s' c' HH Hr HL Hb E) as (body & M' & Eb & _ & Hf).
  pose proof (proj2 Hb body Eb) as (Hmi & _ & _ & _ & Htx & _ & Hpr). pose proof (proj1 (Forall_forall _ _) (present_ok _ Htx)) as Htx'.
  assert (H20 : forall t, t ∈ txs_of body -> array 20 (tx_sender H t)).
  { intros t Ht. apply (party_20 H b body); [exact HH|exact Hb|exact Eb|]. right. exists t. auto. }
  unfold plain_error.
  destruct Hf as [pre t post M' Et _ _ _|pre t post e M' Et Hre _|pre t post M' Et _ _ _ _|pre y post e M' Et _ Hre _|pre t post x M' Et _ _ _ _ _|pre t post x p M' Et _ _ _ _ _ _|early M' Hne Hea _|x M' _ _ _].
  - right. split; [|eexists; constructor]. split; [|apply type_8]. assert (Ht : t ∈ txs_of body) by (rewrite Et; apply elem_of_app; right; left).
    specialize (Htx' t Ht). destruct t; cbn in *; [unfold u8; lia|tauto].
  - assert (Ht : t ∈ txs_of body) by (rewrite Et; apply elem_of_app; right; left). specialize (Htx' t Ht).
    unfold refuses in Hre. destruct (_ <? _); [|destruct Hre as (y & -> & Hp); exact (proof_plain _ _ _ _ _ Hp)]. subst e. right. split; [|eexists; constructor].
    pose proof (debits_ok H M pre (tx_sender H t) (proj1 HL)) as Hx. destruct (value_64 t Htx') as (Hv & Hfee). cbn [fields_ok].
    destruct (after_debits H M pre (tx_sender H t)) as [v|k|k] eqn:Ea; cbn [available wanted]; (split; [|try exact Hv; apply Z.mod_pos_bound; lia]).
    + exact (balance_64 _ Hx).
    + apply unlocked_64; assumption.
    + exact (balance_64 _ Hx).
  - right. split; [|eexists; constructor]. split; [|apply type_8]. assert (Ht : t ∈ txs_of body) by (rewrite Et; apply elem_of_app; right; left).
    specialize (Htx' t Ht). destruct t; cbn in *; [unfold u8; lia|tauto].
  - eapply creation_plain; [|exact Hre]. apply Htx'. change (TExtended y ∈ txs_of body). rewrite Et. apply elem_of_app. right. left.
  - right. split; [|eexists; constructor]. apply H20. rewrite Et. apply elem_of_app. right. left.
  - right. split; [|eexists; constructor]. apply H20. rewrite Et. apply elem_of_app. right. left.
  - right. split.
    + cbn [fields_ok]. apply Forall_forall. intros a Ha. apply Hea in Ha as (Ha & _). destruct (listed_in _ _ Ha) as (p & Hp & <-).
      exact (proj1 (proj1 (Forall_forall _ _) Hpr p Hp)).
    + destruct early as [|a early]; [contradiction Hne; reflexivity|]. eexists. apply (text_early _ a). left. reflexivity.
  - right. split; [|eexists; constructor]. split; [unfold u8; lia|apply type_8].
Qed.

(** If two refusals, of any blocks by any account states, have the same text, they report the same
    fault with the same amounts, types and (where named) addresses. *)
Theorem C128_texts_partial : forall H oob H' oob' s1 c1 b1 e1 s1' c1' s2 c2 b2 e2 s2' c2' text,
  hash_fn H -> hash_fn H' -> (forall x, u64 (oob x)) -> (forall x, u64 (oob' x)) ->
  areach H oob s1 c1 -> block_ok b1 -> tree_Push H oob s1 c1 b1 = (Err e1, s1', c1') ->
  areach H' oob' s2 c2 -> block_ok b2 -> tree_Push H' oob' s2 c2 b2 = (Err e2, s2', c2') ->
  error_text e1 text -> error_text e2 text -> same_fault e1 e2.
Proof.
  intros H oob H' oob' s1 c1 b1 e1 s1' c1' s2 c2 b2 e2 s2' c2' text HH HH' Ho Ho' Hr1 Hb1 E1 Hr2 Hb2 E2 T1 T2.
  eapply texts_differ; [| |exact T1|exact T2|reflexivity].
  - exact (proj1 (plain_fields _ (push_fields H oob s1 c1 b1 e1 s1' c1' HH Ho Hr1 Hb1 E1))).
  - exact (proj1 (plain_fields _ (push_fields H' oob' s2 c2 b2 e2 s2' c2' HH' Ho' Hr2 Hb2 E2))).
Qed.
Print Assumptions C128_texts_partial.

(** What can be read in the text: amounts and types in decimal, the address of a wrongly pruned
    account as text that address.Decode reads back, that of a refused contract in hexadecimal. *)
Theorem C128_readable_partial : forall H oob s c b e s' c',
  hash_fn H -> (forall x, u64 (oob x)) -> areach H oob s c -> block_ok b -> tree_Push H oob s c b = (Err e, s', c') ->
  (decode_error e \/ exists text, error_text e text) /\
  forall text, error_text e text ->
    match e with
    | EOverspend available spend => exists x y,
        text = str "trying to spend " ++ x ++ str " but only has " ++ y /\ read_decimal x = Some spend /\ read_decimal y = Some available
    | EAccountTypeMismatch expected got => exists x y,
        text = str "account type mismatch: got " ++ x ++ str " want " ++ y /\ read_decimal x = Some got /\ read_decimal y = Some expected
    | EPruneMissing a => exists x, text = str "invalid prune of account " ++ x ++ str ": account missing in prune list" /\ Decode x = Ok a
    | EPruneAltered a => exists x, text = str "invalid prune of account " ++ x ++ str ": altered account in prune list" /\ Decode x = Ok a
    | EPruneEarly l => exists x a, text = str "invalid prune of account " ++ x ++ str ": account pruned too early" /\ Decode x = Ok a /\ a ∈ l
    | ECreateBasic a => exists x, text = str "invalid for recipient &" ++ x ++ str ": contract creation for basic account" /\ read_hex x = Some a
    | ECreateBadType a n => exists x y,
        text = str "invalid for recipient &" ++ x ++ str ": invalid recipient type: " ++ y /\ read_hex x = Some a /\ read_decimal y = Some n
    | _ => True
    end.
Proof.
  intros H oob s c b e s' c' HH Ho Hr Hb E. destruct (plain_fields _ (push_fields H oob s c b e s' c' HH Ho Hr Hb E)) as (Hf & Ht). split; [exact Ht|].
  intros text T. destruct T; cbn [fields_ok] in Hf; try exact I.
  - exists (fmt_d s0), (fmt_d a). split; [reflexivity|]. split; apply fmt_d_read; apply Hf.
  - exists (fmt_d g), (fmt_d x). split; [reflexivity|]. split; apply fmt_d_read, u8_64; apply Hf.
  - exists (Encode a). split; [reflexivity|]. apply C06_decode_encode, Hf.
  - exists (Encode a). split; [reflexivity|]. apply C06_decode_encode, Hf.
  - exists (Encode a), a. split; [reflexivity|]. rewrite Forall_forall in Hf. apply elem_of_list_In in H0. split; [apply C06_decode_encode, Hf, H0|exact H0].
  - exists (fmt_x a). split; [reflexivity|]. apply fmt_x_read, Hf.
  - exists (fmt_x a), (fmt_d n). split; [reflexivity|]. split; [apply fmt_x_read, Hf|apply fmt_d_read, u8_64, Hf].
Qed.
Print Assumptions C128_readable_partial.

(** What errors.Unwrap gives is the end of the text, after a colon. *)
Theorem C128_unwrap : forall e text cause, error_text e text -> unwrap_text e = Some cause -> exists front, text = front ++ str ": " ++ cause.
Proof.
  intros e text cause T. destruct T; cbn [unwrap_text]; intros E; try discriminate E; injection E as <-.
  all: try (eexists (str "invalid prune of account " ++ Encode _); unfold prune_text; rewrite <- app_assoc; reflexivity).
  all: try (eexists (str "invalid for recipient " ++ fmt_x_ptr _); unfold recipient_text; rewrite <- app_assoc; reflexivity).
  all: exists (str "failed to init contract"); reflexivity.
Qed.
Print Assumptions C128_unwrap.

(** False: that the text names the account at fault.  Two blocks, each with one transfer that one
    of two different senders cannot pay, are refused with the same text. *)
Definition twin_accounts : list (bytes * Account) := [(addr 1, ABasic 50); (addr 2, ABasic 50)].
Theorem C128_account_refuted : forall oob,
  let s := state_of twin_accounts in
  let b1 := transfer_block [pay 1 (addr 3) 51 0] in let b2 := transfer_block [pay 2 (addr 3) 51 0] in
  areach toy_hash oob s initial_cache /\ block_ok b1 /\ block_ok b2 /\ addr 1 <> addr 2 /\
  exists text, (forall e s' c', tree_Push toy_hash oob s initial_cache b1 = (Err e, s', c') -> error_text e text) /\
    (forall e s' c', tree_Push toy_hash oob s initial_cache b2 = (Err e, s', c') -> error_text e text) /\
    text = str "trying to spend 51 but only has 50" /\
    fst (fst (tree_Push toy_hash oob s initial_cache b1)) = Err (EOverspend 50 51) /\
    fst (fst (tree_Push toy_hash oob s initial_cache b2)) = Err (EOverspend 50 51).
Proof.
  intros oob s b1 b2. assert (Hok : Forall (fun p : bytes * Account => array 20 p.1 /\ account_ok p.2) twin_accounts).
  { repeat (constructor; [split; [apply addr_ok|cbn; unfold u64; lia]|]). constructor. }
  destruct (state_of_ok oob twin_accounts Hok) as (Hr & HL). split; [exact Hr|].
  assert (Hb : forall i, 1 <= i <= 2 -> block_ok (transfer_block [pay i (addr 3) 51 0])).
  { intros i Hi. apply transfer_block_ok; [|reflexivity]. constructor; [apply pay_ok; [lia|apply addr_ok|unfold u64; lia|unfold u64; lia]|constructor]. }
  split; [apply Hb; lia|]. split; [apply Hb; lia|]. split; [vm_compute; discriminate|].
  assert (E1 : fst (fst (tree_Push toy_hash oob s initial_cache b1)) = Err (EOverspend 50 51)) by (vm_compute; reflexivity).
  assert (E2 : fst (fst (tree_Push toy_hash oob s initial_cache b2)) = Err (EOverspend 50 51)) by (vm_compute; reflexivity).
  assert (T : error_text (EOverspend 50 51) (str "trying to spend 51 but only has 50")) by (exact (text_overspend 50 51)).
  exists (str "trying to spend 51 but only has 50"). split; [|split; [|split; [reflexivity|split; assumption]]].
  - intros e s' c' E. rewrite E in E1. cbn [fst] in E1. injection E1 as ->. exact T.
  - intros e s' c' E. rewrite E in E2. cbn [fst] in E2. injection E2 as ->. exact T.
Qed.
Print Assumptions C128_account_refuted.

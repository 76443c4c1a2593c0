(** C104: concurrent calls of GetAddress on one wallet. *)
From Coq Require Import ZArith List Lia Bool.
From stdpp Require Import list.
From Verif.Model Require Import Base Beserial Wire Wallet WalletRace.
From Verif.Proofs Require Import BaseFacts.
Open Scope Z_scope.

(** [words] is a division of the byte string [a]. *)
Definition divides (words : list bytes) (a : bytes) : Prop := concat words = a.
Definition zeros (words : list bytes) : list bytes := map zero_word words.

Definition mixed (words got : list bytes) : Prop := Forall2 (fun w g => g = w \/ g = zero_word w) words got.
Lemma mixed_insert words m i w : mixed words m -> words !! i = Some w -> mixed words (<[i := w]> m).
Proof.
  intros Hm Hw. apply Forall2_same_length_lookup in Hm as (Hl & Hm). apply Forall2_same_length_lookup. split; [rewrite insert_length; exact Hl|].
  intros j x y Hx Hy. destruct (decide (i = j)) as [-> |Hne].
  - rewrite list_lookup_insert in Hy by (rewrite <- Hl; eapply lookup_lt_Some; eauto). left. congruence.
  - rewrite list_lookup_insert_ne in Hy by exact Hne. eauto.
Qed.
Lemma mixed_zeros words : mixed words (zeros words).
Proof. induction words; constructor; auto. Qed.
Lemma mixed_refl words : mixed words words.
Proof. induction words; constructor; auto. Qed.

Definition caller_inv (words : list bytes) (c : caller) : Prop :=
  match c with
  | Compare _ | Write _ => True
  | Read i got => i = length got /\ mixed (take i words) got /\ (i <= length words)%nat
  | Returned got => mixed words got
  end.
Definition race_inv (words : list bytes) (m : wmachine) : Prop :=
  mixed words (wm_words m) /\ Forall (caller_inv words) (wm_callers m).
Lemma race_step words m t : race_inv words m -> race_inv words (wm_step words m t).
Proof.
  intros (Hm & Hc). unfold wm_step. destruct (wm_callers m !! t) as [c|] eqn:Et; [|split; auto].
  pose proof (Forall_lookup_1 _ _ _ _ Hc Et) as I. pose proof (Forall2_length _ _ _ Hm) as Hl.
  destruct c as [i|i|i got|got]; cbn [caller_step]; [| | |split; auto].
  - destruct (wm_words m !! i) as [w|]; (split; [exact Hm|]); (apply Forall_insert; [exact Hc|]); [|exact Logic.I].
    destruct (is_zero_word w); [exact Logic.I|]. cbn. split; [reflexivity|]. split; [constructor|lia].
  - destruct (words !! i) as [w|] eqn:Ew; split; cbn [wm_words wm_callers]; auto.
    + apply mixed_insert; auto.
    + apply Forall_insert; auto.
    + apply Forall_insert; auto. cbn. split; [reflexivity|]. split; [constructor|lia].
  - destruct I as (-> & I & Hle). destruct (wm_words m !! length got) as [g|] eqn:Eg; split; cbn [wm_words wm_callers]; auto; apply Forall_insert; auto; cbn.
    + assert (Hlt : (length got < length words)%nat) by (rewrite Hl; eapply lookup_lt_Some; eauto).
      destruct (lookup_lt_is_Some_2 words (length got) Hlt) as (w & Ew). rewrite app_length. cbn [length]. split; [lia|]. split; [|lia].
      replace (length got + 1)%nat with (S (length got)) by lia. rewrite (take_S_r _ _ _ Ew). apply Forall2_app; [exact I|]. constructor; [|constructor].
      exact (proj2 (proj1 (Forall2_same_length_lookup _ _ _) Hm) _ _ _ Ew Eg).
    + apply lookup_ge_None in Eg. rewrite <- Hl in Eg. rewrite take_ge in I by exact Eg. exact I.
Qed.
Lemma race_run words schedule : forall m, race_inv words m -> race_inv words (wm_run words schedule m).
Proof. unfold wm_run. induction schedule as [|t l IH]; intros m Hm; [exact Hm|]. cbn. apply IH, race_step, Hm. Qed.

(** Whatever the schedule and the division into words: the address a caller gets
    has, in each word, the right bytes or zeros. *)
Theorem C104_words_right_or_zero_partial : forall words n schedule t got,
  wm_callers (wm_run words schedule (wm_start (zeros words) n)) !! t = Some (Returned got) ->
  Forall2 (fun x y => y = x \/ y = zero_word x) words got.
Proof.
  intros words n schedule t got E.
  assert (I : race_inv words (wm_start (zeros words) n)).
  { split; [apply mixed_zeros|]. cbn. apply Forall_forall. intros c Hc. apply elem_of_list_In, repeat_spec in Hc. subst. exact Logic.I. }
  destruct (race_run words schedule _ I) as (_ & Hc). exact (Forall_lookup_1 _ _ _ _ Hc E).
Qed.
Print Assumptions C104_words_right_or_zero_partial.

(** Once the address is memoised (one call has returned before), all concurrent
    callers get it. *)
Definition settled (words : list bytes) (m : wmachine) : Prop :=
  wm_words m = words /\
  Forall (fun c => match c with
                   | Compare i => exists j w, (i <= j)%nat /\ words !! j = Some w /\ is_zero_word w = false
                   | Write _ => False
                   | Read i got => got = take i words /\ (i <= length words)%nat
                   | Returned got => got = words
                   end) (wm_callers m).
Lemma settled_step words m t : settled words m -> settled words (wm_step words m t).
Proof.
  intros (Hm & Hc). unfold wm_step. destruct (wm_callers m !! t) as [c|] eqn:Et; [|split; auto].
  pose proof (Forall_lookup_1 _ _ _ _ Hc Et) as Ic. rewrite Hm. destruct c as [i|i|i got|got]; cbn [caller_step]; [|destruct Ic| |split; auto].
  - destruct Ic as (j & w & Hij & Ej & Ew). destruct (words !! i) as [x|] eqn:Ei.
    + split; [reflexivity|]. apply Forall_insert; [exact Hc|]. destruct (is_zero_word x) eqn:Ex.
      * exists j, w. split; [|auto]. destruct (decide (i = j)) as [-> |]; [congruence|lia].
      * cbn. split; [reflexivity|lia].
    + exfalso. apply lookup_ge_None in Ei. apply lookup_lt_Some in Ej. lia.
  - destruct Ic as (-> & Hle). destruct (words !! i) as [x|] eqn:Ei; (split; [reflexivity|]); (apply Forall_insert; [exact Hc|]).
    + cbn. split; [symmetry; apply take_S_r, Ei|]. apply lookup_lt_Some in Ei. lia.
    + apply lookup_ge_None in Ei. cbn. apply take_ge, Ei.
Qed.
Lemma nonzero_word words : concat words <> repeat 0 (length (concat words)) -> exists j w, words !! j = Some w /\ is_zero_word w = false.
Proof.
  induction words as [|x words IH]; cbn [concat]; intros Hne; [destruct Hne; reflexivity|].
  destruct (is_zero_word x) eqn:Ex; [|exists 0%nat, x; auto]. destruct IH as (j & w & Ej & Ew).
  - intros E. apply Hne. rewrite app_length, repeat_app, <- E. f_equal. clear - Ex. induction x as [|b x IH]; [reflexivity|]. cbn in Ex. apply andb_true_iff in Ex as (Eb & Ex).
    apply Z.eqb_eq in Eb. cbn. f_equal; auto.
  - exists (S j), w. auto.
Qed.
Theorem C104_memoised_partial : forall a words n schedule t got,
  length a = 20%nat -> a <> zero20 -> divides words a ->
  wm_callers (wm_run words schedule (wm_start words n)) !! t = Some (Returned got) -> concat got = a.
Proof.
  intros a words n schedule t got Hl Hne Hd E. unfold divides in Hd.
  destruct (nonzero_word words) as (j & x & Ej & Ex). { rewrite Hd, Hl. exact Hne. }
  assert (I : settled words (wm_start words n)).
  { split; [reflexivity|]. cbn. apply Forall_forall. intros c Hc. apply elem_of_list_In, repeat_spec in Hc. subst. exists j, x. split; [lia|auto]. }
  assert (R : forall m, settled words m -> settled words (wm_run words schedule m)).
  { clear. unfold wm_run. induction schedule as [|t l IH]; intros m Hm; [exact Hm|]. cbn. apply IH, settled_step, Hm. }
  destruct (R _ I) as (_ & Hc). pose proof (Forall_lookup_1 _ _ _ _ Hc E) as Eg. cbn in Eg. congruence.
Qed.
Print Assumptions C104_memoised_partial.

(** A single caller behaves as the sequential model of GetAddress (Model/Wallet.v),
    in any number of steps that is large enough. *)
Lemma run_app words l1 l2 m : wm_run words (l1 ++ l2) m = wm_run words l2 (wm_run words l1 m).
Proof. apply foldl_app. Qed.
Lemma zero_is_zero w : is_zero_word (zero_word w) = true.
Proof. induction w; auto. Qed.
Lemma compares words k i : (i + k <= length words)%nat -> wm_run words (repeat 0%nat k) (WM (zeros words) [Compare i]) = WM (zeros words) [Compare (i + k)].
Proof.
  revert i. induction k as [|k IH]; intros i Hk; [rewrite Nat.add_0_r; reflexivity|]. cbn [repeat]. change (0%nat :: repeat 0%nat k) with ([0%nat] ++ repeat 0%nat k). rewrite run_app.
  assert (E : wm_run words [0%nat] (WM (zeros words) [Compare i]) = WM (zeros words) [Compare (S i)]).
  { destruct (lookup_lt_is_Some_2 words i ltac:(lia)) as (w & Ew). unfold wm_run. cbn. unfold wm_step. cbn. unfold zeros. rewrite list_lookup_fmap, Ew. cbn. rewrite zero_is_zero. reflexivity. }
  rewrite E, IH by lia. do 3 f_equal. lia.
Qed.
Lemma writes words k i : (i + k <= length words)%nat ->
  wm_run words (repeat 0%nat k) (WM (take i words ++ drop i (zeros words)) [Write i]) = WM (take (i + k) words ++ drop (i + k) (zeros words)) [Write (i + k)].
Proof.
  revert i. induction k as [|k IH]; intros i Hk; [rewrite Nat.add_0_r; reflexivity|]. change (repeat 0%nat (S k)) with ([0%nat] ++ repeat 0%nat k). rewrite run_app.
  destruct (lookup_lt_is_Some_2 words i ltac:(lia)) as (w & Ew).
  assert (Ez : zeros words !! i = Some (zero_word w)) by (unfold zeros; rewrite list_lookup_fmap, Ew; reflexivity).
  assert (E : wm_run words [0%nat] (WM (take i words ++ drop i (zeros words)) [Write i]) = WM (take (S i) words ++ drop (S i) (zeros words)) [Write (S i)]).
  { unfold wm_run. cbn. unfold wm_step. cbn [wm_callers]. cbn. rewrite Ew. f_equal. rewrite insert_app_r_alt by (rewrite take_length; lia).
    rewrite take_length_le, Nat.sub_diag by lia. rewrite (drop_S _ _ _ Ez). cbn. rewrite (take_S_r _ _ _ Ew), <- app_assoc. reflexivity. }
  rewrite E, IH by lia. replace (S i + k)%nat with (i + S k)%nat by lia. reflexivity.
Qed.
Lemma reads words mem k i : (i + k <= length mem)%nat ->
  wm_run words (repeat 0%nat k) (WM mem [Read i (take i mem)]) = WM mem [Read (i + k) (take (i + k) mem)].
Proof.
  revert i. induction k as [|k IH]; intros i Hk; [rewrite Nat.add_0_r; reflexivity|]. change (repeat 0%nat (S k)) with ([0%nat] ++ repeat 0%nat k). rewrite run_app.
  destruct (lookup_lt_is_Some_2 mem i ltac:(lia)) as (w & Ew).
  assert (E : wm_run words [0%nat] (WM mem [Read i (take i mem)]) = WM mem [Read (S i) (take (S i) mem)]).
  { unfold wm_run. cbn. unfold wm_step. cbn. rewrite Ew, (take_S_r _ _ _ Ew). reflexivity. }
  rewrite E, IH by lia. replace (S i + k)%nat with (i + S k)%nat by lia. reflexivity.
Qed.
Lemma idle words mem got k : wm_run words (repeat 0%nat k) (WM mem [Returned got]) = WM mem [Returned got].
Proof. induction k as [|k IH]; [reflexivity|]. exact IH. Qed.
Theorem C104_alone : forall H w a w' words k,
  GetAddress H w = Ok (a, w') -> w_address w = zero20 -> divides words a -> (3 * length words + 3 <= k)%nat ->
  exists m got, wm_run words (repeat 0%nat k) (wm_start (zeros words) 1) = m /\
    wm_callers m = [Returned got] /\ concat got = a /\ concat (wm_words m) = w_address w'.
Proof.
  intros H w a w' words k E Ea Hd Hk. unfold divides in Hd. exists (WM words [Returned words]), words.
  assert (Ew : w_address w' = a).
  { unfold GetAddress in E. rewrite Ea in E. destruct (bytes_eqb zero20 zero20); [|congruence]. destruct (GetPublicKey w); cbn in E; try discriminate. injection E as <- <-. reflexivity. }
  split; [|cbn; split; [reflexivity|split; congruence]].
  set (n := length words) in *.
  replace k with (n + (1 + (n + (1 + (n + (1 + (k - (3 * n + 3))))))))%nat by lia. rewrite !repeat_app, !run_app.
  unfold wm_start. cbn [repeat]. rewrite (compares words n 0) by lia. cbn [Nat.add].
  assert (E1 : wm_run words [0%nat] (WM (zeros words) [Compare n]) = WM (zeros words) [Write 0]).
  { unfold wm_run. cbn. unfold wm_step. cbn. unfold zeros. rewrite list_lookup_fmap, lookup_ge_None_2 by reflexivity. reflexivity. }
  rewrite E1. pose proof (writes words n 0 ltac:(lia)) as E2. change (take 0 words ++ drop 0 (zeros words)) with (zeros words) in E2. cbn [Nat.add] in E2. rewrite E2.
  rewrite take_ge, drop_ge, app_nil_r by (unfold zeros; rewrite ?map_length; lia).
  assert (E3 : wm_run words [0%nat] (WM words [Write n]) = WM words [Read 0 []]).
  { unfold wm_run. cbn. unfold wm_step. cbn. rewrite lookup_ge_None_2 by reflexivity. reflexivity. }
  rewrite E3. pose proof (reads words words n 0 ltac:(lia)) as E4. change (take 0 words) with (@nil bytes) in E4. cbn [Nat.add] in E4. rewrite E4, take_ge by lia.
  assert (E5 : wm_run words [0%nat] (WM words [Read n words]) = WM words [Returned words]).
  { unfold wm_run. cbn. unfold wm_step. cbn. rewrite lookup_ge_None_2 by reflexivity. reflexivity. }
  rewrite E5. apply idle.
Qed.
Print Assumptions C104_alone.

(** C104 is false of the code: for every way to divide the address in two or more
    words, if the first is not zero and the address is longer than it and zeros,
    there is a schedule of two first callers in which one of them is returned
    the first word followed by zeros. *)
Theorem C104_concurrent_refuted : forall a word words,
  divides (word :: words) a -> is_zero_word word = false -> existsb (fun w => negb (is_zero_word w)) words = true ->
  exists schedule got, wm_callers (wm_run (word :: words) schedule (wm_start (zeros (word :: words)) 2)) !! 1%nat = Some (Returned got) /\
    got = word :: zeros words /\ concat got <> a.
Proof.
  intros a word words Hd Hw Hr. unfold divides in Hd.
  set (ws := word :: words) in *. set (n := length ws).
  (* caller 0 compares everything and writes one word; caller 1 compares one word and reads *)
  exists (repeat 0%nat (n + 1) ++ [0%nat] ++ [1%nat] ++ repeat 1%nat (n + 1)), (word :: zeros words).
  assert (C : forall k i, (i + k <= n)%nat -> wm_run ws (repeat 0%nat k) (WM (zeros ws) [Compare i; Compare 0]) = WM (zeros ws) [Compare (i + k); Compare 0]).
  { induction k as [|k IH]; intros i Hk; [rewrite Nat.add_0_r; reflexivity|]. change (repeat 0%nat (S k)) with ([0%nat] ++ repeat 0%nat k). rewrite run_app.
    assert (E : wm_run ws [0%nat] (WM (zeros ws) [Compare i; Compare 0]) = WM (zeros ws) [Compare (S i); Compare 0]).
    { destruct (lookup_lt_is_Some_2 ws i ltac:(lia)) as (w & Ew). unfold wm_run. cbn [foldl]. unfold wm_step. cbn [wm_callers wm_words lookup list_lookup caller_step]. unfold zeros. rewrite list_lookup_fmap, Ew. cbn. rewrite zero_is_zero. reflexivity. }
    rewrite E, IH by lia. do 3 f_equal. lia. }
  set (mem := word :: zeros words). 
  assert (Rd : forall c k i, (i + k <= n)%nat -> wm_run ws (repeat 1%nat k) (WM mem [c; Read i (take i mem)]) = WM mem [c; Read (i + k) (take (i + k) mem)]).
  { intros c. induction k as [|k IH]; intros i Hk; [rewrite Nat.add_0_r; reflexivity|]. change (repeat 1%nat (S k)) with ([1%nat] ++ repeat 1%nat k). rewrite run_app.
    assert (Hl : length mem = n) by (unfold mem, zeros, n, ws; cbn; rewrite map_length; reflexivity).
    destruct (lookup_lt_is_Some_2 mem i ltac:(lia)) as (w & Ew).
    assert (E : wm_run ws [1%nat] (WM mem [c; Read i (take i mem)]) = WM mem [c; Read (S i) (take (S i) mem)]).
    { unfold wm_run. cbn [foldl]. unfold wm_step. cbn [wm_callers wm_words lookup list_lookup caller_step]. change (list_lookup i mem) with (mem !! i). rewrite Ew, (take_S_r _ _ _ Ew). reflexivity. }
    rewrite E, IH by lia. replace (S i + k)%nat with (i + S k)%nat by lia. reflexivity. }
  split; [|split; [reflexivity|]].
  - rewrite !run_app. rewrite (repeat_app 0%nat n 1), run_app. unfold wm_start. cbn [repeat]. rewrite (C n 0%nat) by lia. cbn [Nat.add].
    assert (E1 : wm_run ws [0%nat] (WM (zeros ws) [Compare n; Compare 0]) = WM (zeros ws) [Write 0; Compare 0]).
    { unfold wm_run. cbn [foldl]. unfold wm_step. cbn [wm_callers wm_words lookup list_lookup caller_step]. unfold zeros. rewrite list_lookup_fmap, lookup_ge_None_2 by reflexivity. reflexivity. }
    rewrite E1. change (wm_run ws [0%nat] (WM (zeros ws) [Write 0; Compare 0])) with (WM mem [Write 1; Compare 0]).
    assert (E2 : wm_run ws [1%nat] (WM mem [Write 1; Compare 0]) = WM mem [Write 1; Read 0 []]).
    { unfold wm_run. cbn [foldl]. unfold wm_step. cbn. rewrite Hw. reflexivity. }
    rewrite E2, (repeat_app 1%nat n 1), run_app. pose proof (Rd (Write 1) n 0%nat ltac:(lia)) as E3. change (take 0 mem) with (@nil bytes) in E3. cbn [Nat.add] in E3. rewrite E3. cbn [repeat].
    assert (Hl : length mem = n) by (unfold mem, zeros, n, ws; cbn; rewrite map_length; reflexivity). rewrite take_ge by lia.
    unfold wm_run. cbn [foldl]. unfold wm_step. cbn [wm_callers wm_words lookup list_lookup caller_step]. change (list_lookup n mem) with (mem !! n).
    rewrite (lookup_ge_None_2 mem n) by lia. reflexivity.
  - rewrite <- Hd. cbn [concat ws]. intros E. apply app_inv_head in E. clear - Hr E.
    assert (Hz : forallb (fun b => b =? 0) (concat words) = true).
    { rewrite <- E. clear. induction words as [|w words IH]; [reflexivity|]. cbn. rewrite forallb_app. apply andb_true_iff. split; [apply zero_is_zero|exact IH]. }
    clear E. induction words as [|w words IH]; [discriminate|]. cbn in Hr, Hz. rewrite forallb_app in Hz. apply andb_true_iff in Hz as (Hz & Hz').
    change (is_zero_word w = true) in Hz. rewrite Hz in Hr. auto.
Qed.
Print Assumptions C104_concurrent_refuted.
(** For instance an address moved in words of 16 and 4 bytes. *)
Example C104_example : divides [repeat 1 16; repeat 2 4] (repeat 1 16 ++ repeat 2 4) /\ is_zero_word (repeat 1 16) = false /\
  existsb (fun w => negb (is_zero_word w)) [repeat 2 4] = true /\ length (repeat 1 16 ++ repeat 2 4) = 20%nat /\ repeat 1 16 ++ repeat 2 4 <> zero20 /\
  wm_callers (wm_run [repeat 1 16; repeat 2 4] [0; 0; 0; 0; 1; 1; 1; 1; 0; 0; 0; 0; 0]%nat (wm_start (zeros [repeat 1 16; repeat 2 4]) 2)) =
    [Returned [repeat 1 16; repeat 2 4]; Returned [repeat 1 16; repeat 0 4]].
Proof. repeat match goal with |- _ /\ _ => split end; try reflexivity. intros E. discriminate E. Qed.

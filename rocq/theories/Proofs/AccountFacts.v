(** Facts about single accounts: reading of parameter structs, spending rules. *)
From Coq Require Import ZArith List Lia Bool String.
Import ListNotations.
From Verif.Model Require Import Base Address Beserial Wire Account.
From Verif.Spec Require Import BeserialSpec WireSpec AccountSpec.
From Verif.Proofs Require Import BaseFacts BeserialFacts WireFacts InterlinkFacts BlockFacts LayoutFacts.
From Verif.Props Require Import BeserialProps WireProps.
Open Scope Z_scope.

(** ** Inversion of successful reads *)
(** A successful read of type [t] consumed some [e], and [P] holds. *)
Definition reads (t : ty) (P : val -> bytes -> Prop) : Prop :=
  forall dst d v s, bytes_ok d -> value t no_tags dst (DState d []) = (Ok v, s) ->
    exists e, d = e ++ data s /\ bytes_ok (data s) /\ allocs s = [] /\ P v e.

Lemma reads_num k : signed k = false -> reads (TNum k) (fun v e => exists z, v = VNum z /\ in_range k z /\ e = be (width k) z).
Proof.
  intros Hk dst d v s Hd E. cbn [value] in E. unfold mbind, number, pop, ret in E. unfold mbind, pop in E. cbn [data allocs] in E.
  destruct (Z.ltb_spec (zlen d) (Z.of_nat (width k))) as [|Hl]; [discriminate|]. rewrite Nat2Z.id in E.
  assert (Hf : bytes_ok (firstn (width k) d)) by (apply bytes_ok_firstn; exact Hd).
  assert (Hlen : List.length (firstn (width k) d) = width k) by (rewrite firstn_length; unfold zlen in Hl; lia).
  pose proof (be_get_bound _ Hf) as Hb. rewrite Hlen in Hb. pose proof (be_put_get _ Hf) as Hp. rewrite Hlen in Hp.
  set (f := firstn (width k) d) in *.
  assert (Hr : in_range k (be_get f)).
  { revert Hb. generalize (be_get f). intros z Hz. destruct k; try discriminate Hk; exact Hz. }
  assert (Hid : to_kind k (be_get f) = be_get f).
  { unfold to_kind. rewrite Hk. apply Z.mod_small. unfold modulus. exact Hb. }
  exists f.
  assert (v = VNum (be_get f) /\ s = DState (skipn (width k) d) []) as (-> & ->).
  { destruct k; try discriminate Hk; split; congruence. }
  cbn [data allocs]. split; [symmetry; apply firstn_skipn|]. split; [apply bytes_ok_skipn; exact Hd|]. split; [reflexivity|].
  eexists. split; [reflexivity|]. split; [exact Hr|]. unfold be. rewrite big_endian_be_put. symmetry. exact Hp.
Qed.
Lemma reads_bytes n : reads (bytesN n) (fun v e => v = vbytes e /\ array n e).
Proof.
  intros dst d v s Hd E. cbn [value bytesN is_u8 num_kind is_custom] in E. unfold mbind, pop, ret in E. cbn [data allocs] in E.
  destruct (Z.ltb_spec (zlen d) (Z.of_nat n)) as [|Hl]; [discriminate|]. rewrite Nat2Z.id in E.
  exists (firstn n d). assert (v = vbytes (firstn n d) /\ s = DState (skipn n d) []) as (-> & ->) by (split; congruence).
  cbn [data allocs]. split; [symmetry; apply firstn_skipn|]. split; [apply bytes_ok_skipn; exact Hd|]. split; [reflexivity|].
  split; [reflexivity|]. split; [rewrite firstn_length; unfold zlen in Hl; lia|apply bytes_ok_firstn; exact Hd].
Qed.
Lemma reads_custom {A} c t (to : A -> val) (of : val -> A) unm mar (P : A -> bytes -> Prop) :
  c = typed_codec to of unm mar ->
  (forall a d x n, bytes_ok d -> unm a d = Ok (x, n) -> 0 <= n <= zlen d /\ P x (firstn (Z.to_nat n) d)) ->
  reads (TCustom c t) (fun v e => exists x, v = to x /\ P x e).
Proof.
  intros -> HP dst d v s Hd E. cbn [value] in E. unfold call_unmarshal in E. cbn [data allocs typed_codec cd_unmarshal] in E.
  destruct (unm (of dst) d) as [(x & n)|e| |] eqn:Eu; cbn [bind] in E; try discriminate.
  destruct (HP _ _ _ _ Hd Eu) as (Hn & Hx).
  destruct (Z.ltb_spec n 0); [lia|]. destruct (Z.ltb_spec (zlen d) n); [lia|].
  assert (v = to x /\ s = DState (skipn (Z.to_nat n) d) []) as (-> & ->) by (split; congruence).
  exists (firstn (Z.to_nat n) d). cbn [data allocs]. split; [symmetry; apply firstn_skipn|]. split; [apply bytes_ok_skipn; exact Hd|].
  split; [reflexivity|]. exists x. split; [reflexivity|exact Hx].
Qed.
Lemma reads_hash : reads ty_hash (fun v e => exists h, v = v_hash h /\ hash_ok h /\ e = Algorithm h :: Bytes h).
Proof.
  apply (reads_custom hash_codec _ v_hash hash_of Hash_Unmarshal Hash_Marshal (fun h e => hash_ok h /\ e = Algorithm h :: Bytes h)); [reflexivity|].
  intros a d h n Hd E. apply hash_unm_ok in E as (-> & Hl & Hh & Eh); [|exact Hd]. split; [lia|]. split; [exact Hh|]. rewrite Eh. reflexivity.
Qed.
(** What is known of a path that was read. *)
Definition read_path (p : MerklePath) : Prop :=
  u8 (Len (Branches p)) /\ zlen (Hashes p) = Len (Branches p) /\ zlen (Bits (Branches p)) = w8 (Len (Branches p) + 7) / 8 /\
  Forall (array 32) (Hashes p) /\
  (Len (Branches p) <= 248 -> path_ok p).
Lemma reads_path : reads ty_path (fun v e => exists p, v = v_path p /\ read_path p /\ e = bitset_bytes (Branches p) ++ List.concat (Hashes p)).
Proof.
  apply (reads_custom path_codec _ v_path path_of MerklePath_Unmarshal MerklePath_Marshal
           (fun p e => read_path p /\ e = bitset_bytes (Branches p) ++ List.concat (Hashes p))); [reflexivity|].
  intros a d p n Hd E. pose proof (path_unm_ok _ _ _ _ Hd E) as (Hn & Hu & Hb & Hz & Hl & Hh & He).
  split; [lia|]. split.
  - split; [exact Hu|]. split; [exact Hl|]. split; [exact Hz|]. split; [exact Hh|]. intros H248. unfold u8 in Hu. destruct (bitset_fit _ Hu H248 Hz) as (Hz2 & _).
    split; [|split; assumption]. repeat split; try assumption; lia.
  - symmetry. unfold bitset_bytes. rewrite <- He. reflexivity.
Qed.

(** Structs of untagged fields. *)
Fixpoint read_fields (Ps : list (val -> bytes -> Prop)) (vs : list val) (e : bytes) : Prop :=
  match Ps, vs with
  | [], [] => e = []
  | P :: Ps', v :: vs' => exists e1 e2, e = e1 ++ e2 /\ P v e1 /\ read_fields Ps' vs' e2
  | _, _ => False
  end.
Lemma reads_struct ts Ps : Forall2 reads ts Ps -> reads (TStruct (map field ts)) (fun v e => exists vs, v = VStruct vs /\ read_fields Ps vs e).
Proof.
  intros HF dst d v s Hd E. cbn [value] in E. unfold mbind at 1 in E.
  set (go := (fix fields (fs : list (option bytes * ty)) (dsts : list val) {struct fs} : M (list val) :=
                  match fs with
                  | [] => ret []
                  | (tag, t0) :: fs' =>
                      do ts0 <- fail (field_tags tag);
                      do v <- value t0 ts0 (hd_val dsts);
                      do vs <- fields fs' (List.tl dsts);
                      ret (v :: vs)
                  end)) in E.
  assert (G : forall dsts d vs s, bytes_ok d -> go (map field ts) dsts (DState d []) = (Ok vs, s) ->
            exists e, d = e ++ data s /\ bytes_ok (data s) /\ allocs s = [] /\ read_fields Ps vs e).
  { clear E d v s Hd dst. induction HF as [|t P ts Ps Ht _ IH]; intros dsts d vs s Hd E.
    - unfold go in E. cbn [map] in E. unfold ret in E. exists []. assert (vs = [] /\ s = DState d []) as (-> & ->) by (split; congruence). cbn. auto.
    - cbn [map] in E. change (go (field t :: map field ts) dsts (DState d [])) with
        ((do v <- value t no_tags (hd_val dsts); do vs <- go (map field ts) (List.tl dsts); ret (v :: vs)) (DState d [])) in E.
      unfold mbind at 1 in E. destruct (value t no_tags (hd_val dsts) (DState d [])) as ([w|e| |] & s1) eqn:E1; try discriminate.
      destruct (Ht _ _ _ _ Hd E1) as (e1 & Ed & Hd1 & Ha1 & HP). destruct s1 as [d1 a1]. cbn [data allocs] in *. subst a1.
      unfold mbind in E. destruct (go (map field ts) (List.tl dsts) (DState d1 [])) as ([ws|e| |] & s2) eqn:E2; try discriminate.
      destruct (IH _ _ _ _ Hd1 E2) as (e2 & Ed2 & Hd2 & Ha2 & HPs).
      assert (vs = w :: ws /\ s = s2) as (-> & ->) by (unfold ret in E; split; congruence).
      exists (e1 ++ e2). rewrite <- app_assoc, <- Ed2. split; [exact Ed|]. split; [exact Hd2|]. split; [exact Ha2|].
      cbn [read_fields]. exists e1, e2. auto. }
  destruct (go (map field ts) (elems_of dst) (DState d [])) as ([vs|e| |] & s1) eqn:E1; try discriminate.
  destruct (G _ _ _ _ Hd E1) as (e & Ed & Hd1 & Ha & HP). assert (v = VStruct vs /\ s = s1) as (-> & ->) by (unfold ret in E; split; congruence).
  exists e. eauto 6.
Qed.
Lemma reads_weaken t (P Q : val -> bytes -> Prop) : (forall v e, P v e -> Q v e) -> reads t P -> reads t Q.
Proof. intros HPQ Hr dst d v s Hd E. destruct (Hr _ _ _ _ Hd E) as (e & H1 & H2 & H3 & H4). exists e. auto. Qed.

(** What is known of a signature proof that was read. *)
Definition read_proof (p : SignatureProof) : Prop :=
  array 32 (PublicKey p) /\ array 64 (Signature p) /\ read_path (Path p).
Lemma reads_proof : reads ty_proof (fun v e => exists p, v = v_proof p /\ read_proof p /\ e = proof_bytes p).
Proof.
  change ty_proof with (TStruct (map field [bytesN 32; ty_path; bytesN 64])).
  eapply reads_weaken; [|apply reads_struct; repeat constructor; [apply reads_bytes|apply reads_path|apply reads_bytes]].
  intros v e (vs & -> & Hf). destruct vs as [|v1 [|v2 [|v3 [|? ?]]]]; cbn [read_fields] in Hf; try tauto.
  - destruct Hf as (? & ? & _ & _ & []).
  - destruct Hf as (? & ? & _ & _ & ? & ? & _ & _ & []).
  - destruct Hf as (e1 & r1 & -> & (-> & A1) & e2 & r2 & -> & (p & -> & Hp & ->) & e3 & r3 & -> & (-> & A3) & ->).
    exists (MkProof e1 p e3). split; [reflexivity|]. split; [split; [exact A1|split; [exact A3|exact Hp]]|].
    unfold proof_bytes. cbn [PublicKey Path Signature]. rewrite app_nil_r. reflexivity.
  - destruct Hf as (? & ? & _ & _ & ? & ? & _ & _ & ? & ? & _ & _ & []).
Qed.
Lemma read_proof_ok p : read_proof p -> Len (Branches (Path p)) <= 248 -> proof_ok p.
Proof. intros (H1 & H2 & H3) Hl. split; [exact H1|]. split; [apply H3, Hl|exact H2]. Qed.

(** ** UnmarshalFull into a fresh struct *)
Lemma read_full_inv t P d : well_declared codec_safe t -> reads t P -> bytes_ok d ->
  (exists e, read_full t d = Err e) \/ (exists v, read_full t d = Ok v /\ P v d).
Proof.
  intros Hw Hr Hd. destruct (C28_unmarshal_total t (zero t) d Hw Hd) as (r & n & E & Hn & Hv & Hf & _).
  unfold read_full, UnmarshalFull. rewrite E. destruct Hv as [(v & ->)|(e & ->)]; cbn [bind]; [|left; eauto].
  destruct (Z.ltb_spec n (zlen d)) as [|Hl]; cbn [bind]; [left; eauto|]. right. exists v. split; [reflexivity|].
  unfold Unmarshal in E. destruct (value t no_tags (zero t) (DState d [])) as (r & s) eqn:Ev. destruct r as [w|e| |]; cbn [bind] in E; try discriminate.
  assert (w = v /\ zlen d - zlen (data s) = n) as (-> & En) by (split; congruence).
  destruct (Hr _ _ _ _ Hd Ev) as (e & Ed & _ & _ & HP). assert (data s = []) as E0.
  { destruct (data s); [reflexivity|]. unfold zlen in *. cbn [List.length] in En. lia. }
  rewrite E0, app_nil_r in Ed. congruence.
Qed.
Lemma read_full_enc t v e : enc t no_tags v e -> read_full t e = Ok v.
Proof.
  intros He. destruct (enc_marshal _ _ _ He) as (_ & Hu). specialize (Hu (zero t) []). rewrite app_nil_r in Hu.
  unfold read_full, UnmarshalFull. rewrite Hu. cbn [bind]. rewrite Z.ltb_irrefl. reflexivity.
Qed.
Lemma declared_fields (P : codec -> Prop) ts : Forall (well_declared P) ts -> well_declared P (TStruct (map field ts)).
Proof.
  intros Hf. change (all_declared P (map field ts)). induction Hf as [|t ts Ht _ IH]; [exact I|].
  cbn [map field all_declared]. split; [eexists; reflexivity|]. split; [exact Ht|exact IH].
Qed.
Lemma safe_proof : well_declared codec_safe ty_proof.
Proof. apply declared_proof. exact path_safe. Qed.
Ltac declared := apply declared_fields; repeat (apply Forall_cons || apply Forall_nil);
  first [exact safe_proof | exact hash_safe | exact I | (split; [intros _; reflexivity|exact I])].

(** ** The signer *)
Lemma signer_ok H p : path_ok (Path p) -> SignerAddress H p = Ok (signer_of H p).
Proof.
  intros (Hb & Hh & _). unfold SignerAddress, ComputeRoot, signer_of, merkle_root_of. destruct Hb as (Hb1 & Hb2 & Hb3).
  assert (Hfit : (0 + List.length (Hashes (Path p)) <= 8 * List.length (Bits (Branches (Path p))))%nat).
  { unfold zlen in *. pose proof (Z.div_mod (Len (Branches (Path p)) + 7) 8) as Hdm. pose proof (Z.mod_pos_bound (Len (Branches (Path p)) + 7) 8) as Hmb. lia. }
  change 0 with (Z.of_nat 0). rewrite compute_from_dirs; [reflexivity| |exact Hfit].
  rewrite Hb3. assert ((Len (Branches (Path p)) + 7) / 8 < 32) by (apply Z.div_lt_upper_bound; lia). lia.
Qed.

Lemma signer_cases H p : read_proof p ->
  (Len (Branches (Path p)) <= 248 /\ SignerAddress H p = Ok (signer_of H p)) \/
  (248 < Len (Branches (Path p)) /\ SignerAddress H p = Panic).
Proof.
  intros (_ & _ & Hu & Hl & Hz & _ & Hok). destruct (Z.le_gt_cases (Len (Branches (Path p))) 248) as [H1|H1]; [left|right].
  - split; [exact H1|]. apply signer_ok. apply Hok. exact H1.
  - split; [exact H1|]. unfold u8 in Hu. set (x := Len (Branches (Path p))) in *.
    assert (E : w8 (x + 7) / 8 = 0).
    { unfold w8. replace (x + 7) with (x - 249 + 1 * two8) by (unfold two8; lia). rewrite Z.mod_add by discriminate. rewrite Z.mod_small by (unfold two8; lia). apply Z.div_small. lia. }
    unfold SignerAddress, ComputeRoot. destruct (Hashes (Path p)) as [|h nodes] eqn:En; [unfold zlen in Hl; cbn in Hl; lia|].
    cbn [compute_from]. rewrite bit_panic; [reflexivity|unfold w8; cbn; lia|]. rewrite E in Hz. rewrite Hz. cbn. lia.
Qed.
Lemma signer_len H p : hash_fn H -> array 20 (signer_of H p).
Proof.
  intros Hh. unfold signer_of, merkle_root_of.
  assert (G : forall l r, array 32 r -> array 32 (fold_left (fun r (x : bool * bytes) => if fst x then H (snd x ++ r) else H (r ++ snd x)) l r)).
  { induction l as [|(b & x) l IH]; intros r Hr; [exact Hr|]. cbn [fold_left fst snd]. apply IH. destruct b; apply Hh. }
  destruct (G (combine (directions (Path p)) (Hashes (Path p))) (H (PublicKey p)) (Hh _)) as (Hl & Hb).
  split; [rewrite firstn_length, Hl; reflexivity|apply bytes_ok_firstn; exact Hb].
Qed.

(** ** Spending *)
Lemma proof_of_v p : proof_of (v_proof p) = p.
Proof. unfold proof_of, v_proof. cbn [fld nth]. rewrite !bytes_of_vbytes, path_of_v. destruct p; reflexivity. Qed.
Lemma tx_ok_ext x : tx_ok (TExtended x) -> bytes_ok (x_data x) /\ bytes_ok (x_proof x) /\ u64 (x_value x) /\ u64 (x_fee x).
Proof. cbn. tauto. Qed.
Lemma read_proof_full H d : bytes_ok d ->
  (exists e, read_full ty_proof d = Err e) \/
  (exists p, d = proof_bytes p /\ read_full ty_proof d = Ok (v_proof p) /\
     ((proof_ok p /\ SignerAddress H p = Ok (signer_of H p)) \/ (read_proof p /\ 248 < Len (Branches (Path p)) /\ SignerAddress H p = Panic))).
Proof.
  intros Hd. destruct (read_full_inv ty_proof _ d safe_proof reads_proof Hd) as [E|(v & E & p & -> & Hp & ->)]; [left; exact E|right].
  exists p. split; [reflexivity|]. split; [exact E|]. destruct (signer_cases H p Hp) as [(H1 & H2)|(H1 & H2)]; [left|right]; auto.
  split; [apply read_proof_ok; assumption|exact H2].
Qed.

Theorem vesting_spend H oob c x height a :
  bytes_ok (x_proof x) ->
  ApplyOutgoingTx H oob (AVesting c) (TExtended x) height = Ok a <->
  x_value x <= amountUnlocked oob c height /\
  (exists p, proof_ok p /\ signer_of H p = v_owner c /\ x_proof x = proof_bytes p) /\
  a = with_balance (AVesting c) ((v_value c - x_value x) mod 2 ^ 64).
Proof.
  intros Hd. cbn [ApplyOutgoingTx with_balance]. unfold Vesting_Outgoing. cbn [as_extended bind].
  change (w64 (v_value c - x_value x)) with ((v_value c - x_value x) mod 2 ^ 64).
  destruct (Z.ltb_spec (amountUnlocked oob c height) (x_value x)) as [Hu|Hu]; [split; [discriminate|lia]|].
  split.
  - intros E. split; [exact Hu|]. destruct (read_proof_full H _ Hd) as [(e & Er)|(p & Ed & Er & Hs)]; rewrite Er in E; cbn [bind] in E; [discriminate|].
    rewrite proof_of_v in E. destruct Hs as [(Hp & Es)|(_ & _ & Es)]; rewrite Es in E; cbn [bind] in E; [|discriminate].
    destruct (bytes_eqb (signer_of H p) (v_owner c)) eqn:Eo; [|discriminate]. apply bytes_eqb_eq in Eo.
    split; [exists p; auto|congruence].
  - intros (_ & (p & Hp & Eo & Ed) & ->). rewrite Ed, (read_full_enc _ _ _ (proof_layout p Hp)). cbn [bind].
    rewrite proof_of_v, (signer_ok H p) by apply Hp. cbn [bind]. rewrite Eo, bytes_eqb_refl. reflexivity.
Qed.

(** ** HTLC *)
Lemma reads_regular : reads ty_regular (fun v e => exists alg depth root pre p,
  v = VStruct [VNum alg; VNum depth; vbytes root; vbytes pre; v_proof p] /\
  u8 alg /\ u8 depth /\ array 32 root /\ array 32 pre /\ read_proof p /\ e = alg :: depth :: root ++ pre ++ proof_bytes p).
Proof.
  change ty_regular with (TStruct (map field [TNum U8; TNum U8; bytesN 32; bytesN 32; ty_proof])).
  eapply reads_weaken; [|apply reads_struct; repeat constructor; [apply (reads_num U8); reflexivity|apply (reads_num U8); reflexivity|apply reads_bytes|apply reads_bytes|apply reads_proof]].
  intros v e (vs & -> & Hf).
  destruct vs as [|v1 vs]; cbn [read_fields] in Hf; [tauto|]. destruct Hf as (e1 & r1 & -> & (z1 & -> & R1 & ->) & Hf).
  destruct vs as [|v2 vs]; [tauto|]. destruct Hf as (e2 & r2 & -> & (z2 & -> & R2 & ->) & Hf).
  destruct vs as [|v3 vs]; [tauto|]. destruct Hf as (e3 & r3 & -> & (-> & A3) & Hf).
  destruct vs as [|v4 vs]; [tauto|]. destruct Hf as (e4 & r4 & -> & (-> & A4) & Hf).
  destruct vs as [|v5 vs]; [tauto|]. destruct Hf as (e5 & r5 & -> & (p & -> & Hp & ->) & Hf).
  destruct vs as [|v6 vs]; [|tauto]. subst r5.
  exists z1, z2, e3, e4, p. split; [reflexivity|]. split; [exact R1|]. split; [exact R2|]. split; [exact A3|]. split; [exact A4|]. split; [exact Hp|].
  cbn [in_range] in R1, R2. unfold be. cbn [width big_endian Z.of_nat Z.pow app]. rewrite !Z.div_1_r, !Z.mod_small by lia. rewrite app_nil_r. reflexivity.
Qed.
Lemma reads_early : reads ty_early (fun v e => exists p q, v = VStruct [v_proof p; v_proof q] /\ read_proof p /\ read_proof q /\ e = proof_bytes p ++ proof_bytes q).
Proof.
  change ty_early with (TStruct (map field [ty_proof; ty_proof])).
  eapply reads_weaken; [|apply reads_struct; repeat constructor; apply reads_proof].
  intros v e (vs & -> & Hf).
  destruct vs as [|v1 vs]; cbn [read_fields] in Hf; [tauto|]. destruct Hf as (e1 & r1 & -> & (p & -> & Hp & ->) & Hf).
  destruct vs as [|v2 vs]; [tauto|]. destruct Hf as (e2 & r2 & -> & (q & -> & Hq & ->) & Hf).
  destruct vs as [|v3 vs]; [|tauto]. subst r2. exists p, q. rewrite app_nil_r. auto.
Qed.
Lemma reads_timeout : reads ty_timeout (fun v e => exists p, v = VStruct [v_proof p] /\ read_proof p /\ e = proof_bytes p).
Proof.
  change ty_timeout with (TStruct (map field [ty_proof])).
  eapply reads_weaken; [|apply reads_struct; repeat constructor; apply reads_proof].
  intros v e (vs & -> & Hf).
  destruct vs as [|v1 vs]; cbn [read_fields] in Hf; [tauto|]. destruct Hf as (e1 & r1 & -> & (p & -> & Hp & ->) & Hf).
  destruct vs as [|v3 vs]; [|tauto]. subst r1. exists p. rewrite app_nil_r. auto.
Qed.
Lemma safe_regular : well_declared codec_safe ty_regular.
Proof. change ty_regular with (TStruct (map field [TNum U8; TNum U8; bytesN 32; bytesN 32; ty_proof])). declared. Qed.
Lemma safe_early : well_declared codec_safe ty_early.
Proof. change ty_early with (TStruct (map field [ty_proof; ty_proof])). declared. Qed.
Lemma safe_timeout : well_declared codec_safe ty_timeout.
Proof. change ty_timeout with (TStruct (map field [ty_proof])). declared. Qed.
Lemma be1 z : u8 z -> be 1 z = [z].
Proof. unfold u8, be. intros Hz. cbn [big_endian Z.of_nat Z.pow]. rewrite Z.div_1_r, Z.mod_small by lia. reflexivity. Qed.
Lemma enc_regular alg depth root pre p : u8 alg -> u8 depth -> array 32 root -> array 32 pre -> proof_ok p ->
  enc ty_regular no_tags (VStruct [VNum alg; VNum depth; vbytes root; vbytes pre; v_proof p]) (alg :: depth :: root ++ pre ++ proof_bytes p).
Proof.
  intros H1 H2 H3 H4 H5. change (alg :: depth :: root ++ pre ++ proof_bytes p) with ([alg] ++ [depth] ++ root ++ pre ++ proof_bytes p).
  rewrite <- (be1 alg H1), <- (be1 depth H2). apply enc_struct. enc_fields_tac;
    first [apply (enc_int U8); assumption | apply enc_bytesN; assumption | apply proof_layout; assumption].
Qed.
Lemma enc_early p q : proof_ok p -> proof_ok q -> enc ty_early no_tags (VStruct [v_proof p; v_proof q]) (proof_bytes p ++ proof_bytes q).
Proof. intros Hp Hq. apply enc_struct. enc_fields_tac; apply proof_layout; assumption. Qed.
Lemma enc_timeout p : proof_ok p -> enc ty_timeout no_tags (VStruct [v_proof p]) (proof_bytes p).
Proof. intros Hp. apply enc_struct. enc_fields_tac; apply proof_layout; assumption. Qed.

(** Outcomes that panic come from an oversized path. *)
Lemma read_proof_len p : read_proof p -> 32 * Len (Branches (Path p)) + 97 <= zlen (proof_bytes p).
Proof.
  intros ((L1 & _) & (L2 & _) & Hu & Hl & Hz & Hf & _). unfold proof_bytes, bitset_bytes. rewrite !zlen_app, zlen_cons.
  assert (Hh : forall l, Forall (array 32) l -> zlen (List.concat l) = 32 * zlen l).
  { induction 1 as [|h l (Hh & _) _ IH]; [reflexivity|]. cbn [List.concat]. rewrite zlen_app, zlen_cons, IH. unfold zlen at 1. rewrite Hh. lia. }
  rewrite (Hh _ Hf), Hl. unfold zlen. rewrite L1, L2. lia.
Qed.

Definition htlc_resolves (H : bytes -> bytes) (h : HTLC) (proof : bytes) (height : Z) : Prop :=
  htlc_regular H h proof height \/ htlc_early H h proof \/ htlc_timeout H h proof height.
Lemma num_bytes b : bytes_of (vbytes b) = b.
Proof. apply bytes_of_vbytes. Qed.

Lemma htlc_resolves_ok H h t d height : account_ok (AHTLC h) -> htlc_resolves H h (t :: d) height -> HTLC_check H h t d height = Ok tt.
Proof.
  intros (_ & _ & _ & Hh & _) [(depth & pre & p & Ht & Hdp & Hpre & Hp & Es & E)|[(p & q & Hp & Hq & Ep & Eq & E)|(p & Ht & Hp & Es & E)]];
    injection E as -> ->; unfold HTLC_check; cbn [Z.eqb Pos.eqb].
  - destruct (Z.ltb_spec (h_timeout h) height) as [|_]; [lia|].
    destruct Hh as (Hh1 & Hh2). rewrite (read_full_enc _ _ _ (enc_regular _ _ _ _ _ Hh1 Hdp Hh2 Hpre Hp)). cbn [bind fld nth num_of].
    rewrite num_bytes, Z.eqb_refl, bytes_eqb_refl, proof_of_v, (signer_ok H p) by apply Hp. cbn [negb orb bind]. rewrite Es, bytes_eqb_refl. reflexivity.
  - rewrite (read_full_enc _ _ _ (enc_early p q Hp Hq)). cbn [bind fld nth]. rewrite !proof_of_v, (signer_ok H p), (signer_ok H q) by (apply Hp || apply Hq).
    cbn [bind]. rewrite Ep, Eq, !bytes_eqb_refl. reflexivity.
  - destruct (Z.leb_spec height (h_timeout h)) as [|_]; [lia|].
    rewrite (read_full_enc _ _ _ (enc_timeout p Hp)). cbn [bind fld nth]. rewrite proof_of_v, (signer_ok H p) by apply Hp. cbn [bind]. rewrite Es, bytes_eqb_refl. reflexivity.
Qed.
Lemma htlc_check_inv H h t d height : bytes_ok d ->
  match HTLC_check H h t d height with
  | Ok _ => htlc_resolves H h (t :: d) height
  | Err _ => True
  | Panic => 8065 <= zlen d
  | OutOfFuel => False
  end.
Proof.
  intros Hd. unfold HTLC_check.
  destruct (Z.eqb_spec t 1) as [->|_]; [|destruct (Z.eqb_spec t 2) as [->|_]; [|destruct (Z.eqb_spec t 3) as [->|_]; [|exact I]]].
  - destruct (Z.ltb_spec (h_timeout h) height) as [|Ht]; [exact I|].
    destruct (read_full_inv _ _ d safe_regular reads_regular Hd) as [(e & ->)|(v & -> & alg & depth & root & pre & p & -> & R1 & R2 & A3 & A4 & Hp & ->)]; [exact I|].
    cbn [bind fld nth num_of]. rewrite num_bytes, proof_of_v.
    destruct (Z.eqb_spec alg (Algorithm (h_hash h))) as [->|]; [|exact I].
    destruct (bytes_eqb root (Bytes (h_hash h))) eqn:Eb; [|exact I]. apply bytes_eqb_eq in Eb as ->. cbn [negb orb].
    destruct (signer_cases H p Hp) as [(Hl & ->)|(Hl & ->)]; cbn [bind].
    + destruct (bytes_eqb (signer_of H p) (h_recipient h)) eqn:Es; [|exact I]. apply bytes_eqb_eq in Es.
      left. exists depth, pre, p. pose proof (read_proof_ok p Hp Hl). auto 8.
    + pose proof (read_proof_len p Hp). rewrite !zlen_cons, !zlen_app. pose proof (zlen_nonneg (Bytes (h_hash h))). pose proof (zlen_nonneg pre). lia.
  - destruct (read_full_inv _ _ d safe_early reads_early Hd) as [(e & ->)|(v & -> & p & q & -> & Hp & Hq & ->)]; [exact I|].
    cbn [bind fld nth]. rewrite !proof_of_v, zlen_app.
    destruct (signer_cases H p Hp) as [(Hl & ->)|(Hl & ->)]; cbn [bind].
    + destruct (bytes_eqb (signer_of H p) (h_recipient h)) eqn:Es; [|exact I]. apply bytes_eqb_eq in Es. cbn [negb].
      destruct (signer_cases H q Hq) as [(Hl2 & ->)|(Hl2 & ->)]; cbn [bind].
      * destruct (bytes_eqb (signer_of H q) (h_sender h)) eqn:Es2; [|exact I]. apply bytes_eqb_eq in Es2.
        right. left. exists p, q. pose proof (read_proof_ok p Hp Hl). pose proof (read_proof_ok q Hq Hl2). auto 8.
      * pose proof (read_proof_len q Hq). pose proof (zlen_nonneg (proof_bytes p)). lia.
    + pose proof (read_proof_len p Hp). pose proof (zlen_nonneg (proof_bytes q)). lia.
  - destruct (Z.leb_spec height (h_timeout h)) as [|Ht]; [exact I|].
    destruct (read_full_inv _ _ d safe_timeout reads_timeout Hd) as [(e & ->)|(v & -> & p & -> & Hp & ->)]; [exact I|].
    cbn [bind fld nth]. rewrite proof_of_v.
    destruct (signer_cases H p Hp) as [(Hl & ->)|(Hl & ->)]; cbn [bind].
    + destruct (bytes_eqb (signer_of H p) (h_sender h)) eqn:Es; [|exact I]. apply bytes_eqb_eq in Es.
      right. right. exists p. pose proof (read_proof_ok p Hp Hl). auto 8.
    + pose proof (read_proof_len p Hp). lia.
Qed.
Theorem htlc_spend H oob h x height a :
  account_ok (AHTLC h) -> tx_ok (TExtended x) ->
  ApplyOutgoingTx H oob (AHTLC h) (TExtended x) height = Ok a <->
  x_value x <= h_value h /\ htlc_resolves H h (x_proof x) height /\ a = with_balance (AHTLC h) (h_value h - x_value x).
Proof.
  intros Hh Hx. destruct (tx_ok_ext x Hx) as (_ & Hd & Hv & _). cbn [ApplyOutgoingTx with_balance]. unfold HTLC_Outgoing. cbn [as_extended bind].
  pose proof Hh as (Hhv & _). unfold u64 in *.
  destruct (Z.ltb_spec (h_value h) (x_value x)) as [Hu|Hu]; [split; [discriminate|lia]|].
  assert (w64 (h_value h - x_value x) = h_value h - x_value x) as -> by (apply Z.mod_small; unfold two64; lia).
  destruct (x_proof x) as [|t d] eqn:Ex.
  - split; [discriminate|]. intros (_ & [(depth & pre & p & _ & _ & _ & _ & _ & E)|[(p & q & _ & _ & _ & _ & E)|(p & _ & _ & _ & E)]] & _); discriminate E.
  - assert (Hd' : bytes_ok d) by (inversion Hd; assumption). split.
    + pose proof (htlc_check_inv H h t d height Hd') as Hc. destruct (HTLC_check H h t d height); cbn [bind]; try discriminate.
      intros E. split; [exact Hu|]. split; [exact Hc|congruence].
    + intros (_ & Hr & ->). rewrite (htlc_resolves_ok H h t d height Hh Hr). reflexivity.
Qed.

(** ** What can go wrong when spending *)
Lemma outgoing_outcome H oob a t height : account_ok a -> tx_ok t ->
  match ApplyOutgoingTx H oob a t height with
  | Ok a' => a' = with_balance a (Balance a') /\ account_ok a'
  | Err _ => True
  | Panic => (exists b, t = TBasic b /\ ~ is_basic a) \/ (exists x, t = TExtended x /\ 8065 <= zlen (x_proof x))
  | OutOfFuel => False
  end.
Proof.
  intros Ha Ht. destruct a as [v|c|h].
  - cbn [ApplyOutgoingTx]. unfold Basic_Outgoing. destruct (Amount t) as (v0 & f). destruct (v <? w64 (v0 + f)); [exact I|].
    split; [reflexivity|]. cbn. apply Z.mod_pos_bound. reflexivity.
  - destruct t as [b|x].
    + cbn. left. exists b. split; [reflexivity|]. intros (v & E). discriminate E.
    + cbn [ApplyOutgoingTx]. unfold Vesting_Outgoing. cbn [as_extended bind]. destruct (amountUnlocked oob c height <? x_value x); [exact I|].
      destruct (tx_ok_ext x Ht) as (_ & Hd & _). destruct Ha as (H1 & H2 & H3 & H4 & H5 & H6).
      destruct (read_proof_full H _ Hd) as [(e & ->)|(p & Ep & -> & Hs)]; [exact I|]. cbn [bind]. rewrite proof_of_v.
      destruct Hs as [(Hp & ->)|(Hr & Hl & ->)]; cbn [bind].
      * destruct (bytes_eqb (signer_of H p) (v_owner c)); [|exact I]. cbn [Balance with_balance account_ok v_value v_owner v_start v_step_blocks v_step_amount v_total].
        split; [reflexivity|]. split; [apply Z.mod_pos_bound; reflexivity|auto 8].
      * right. exists x. split; [reflexivity|]. rewrite Ep. pose proof (read_proof_len p Hr). lia.
  - destruct t as [b|x].
    + cbn. left. exists b. split; [reflexivity|]. intros (v & E). discriminate E.
    + cbn [ApplyOutgoingTx]. unfold HTLC_Outgoing. cbn [as_extended bind]. destruct (h_value h <? x_value x); [exact I|].
      destruct (tx_ok_ext x Ht) as (_ & Hd & _). destruct (x_proof x) as [|ty d] eqn:Ex; [exact I|].
      assert (Hd' : bytes_ok d) by (inversion Hd; assumption). pose proof (htlc_check_inv H h ty d height Hd') as Hc.
      destruct (HTLC_check H h ty d height); cbn [bind]; [|exact I| |exact Hc].
      * destruct Ha as (H1 & H2 & H3 & H4 & H5 & H6 & H7). cbn [Balance with_balance account_ok h_value h_sender h_recipient h_hash h_count h_timeout h_total].
        split; [reflexivity|]. split; [apply Z.mod_pos_bound; reflexivity|auto 8].
      * right. exists x. split; [reflexivity|]. rewrite Ex, zlen_cons. lia.
Qed.

(** ** Contract creation *)
Lemma reads_v24 : reads ty_vesting24 (fun v e => exists o b, v = VStruct [vbytes o; VNum b] /\ array 20 o /\ u32 b /\ e = o ++ be 4 b).
Proof.
  change ty_vesting24 with (TStruct (map field [bytesN 20; TNum U32])).
  eapply reads_weaken; [|apply reads_struct; repeat constructor; [apply reads_bytes|apply (reads_num U32); reflexivity]].
  intros v e (vs & -> & Hf).
  destruct vs as [|v1 vs]; cbn [read_fields] in Hf; [tauto|]. destruct Hf as (e1 & r1 & -> & (-> & A1) & Hf).
  destruct vs as [|v2 vs]; [tauto|]. destruct Hf as (e2 & r2 & -> & (z2 & -> & R2 & ->) & Hf).
  destruct vs as [|? ?]; [|tauto]. subst r2. rewrite app_nil_r. exists e1, z2. auto.
Qed.
Lemma reads_v36 : reads ty_vesting36 (fun v e => exists o st b am, v = VStruct [vbytes o; VNum st; VNum b; VNum am] /\ array 20 o /\ u32 st /\ u32 b /\ u64 am /\
  e = o ++ be 4 st ++ be 4 b ++ be 8 am).
Proof.
  change ty_vesting36 with (TStruct (map field [bytesN 20; TNum U32; TNum U32; TNum U64])).
  eapply reads_weaken; [|apply reads_struct; repeat constructor; [apply reads_bytes|apply (reads_num U32); reflexivity|apply (reads_num U32); reflexivity|apply (reads_num U64); reflexivity]].
  intros v e (vs & -> & Hf).
  destruct vs as [|v1 vs]; cbn [read_fields] in Hf; [tauto|]. destruct Hf as (e1 & r1 & -> & (-> & A1) & Hf).
  destruct vs as [|v2 vs]; [tauto|]. destruct Hf as (e2 & r2 & -> & (z2 & -> & R2 & ->) & Hf).
  destruct vs as [|v3 vs]; [tauto|]. destruct Hf as (e3 & r3 & -> & (z3 & -> & R3 & ->) & Hf).
  destruct vs as [|v4 vs]; [tauto|]. destruct Hf as (e4 & r4 & -> & (z4 & -> & R4 & ->) & Hf).
  destruct vs as [|? ?]; [|tauto]. subst r4. rewrite app_nil_r. exists e1, z2, z3, z4. auto 8.
Qed.
Lemma reads_v44 : reads ty_vesting44 (fun v e => exists o st b am tot, v = VStruct [vbytes o; VNum st; VNum b; VNum am; VNum tot] /\ array 20 o /\ u32 st /\ u32 b /\ u64 am /\ u64 tot /\
  e = o ++ be 4 st ++ be 4 b ++ be 8 am ++ be 8 tot).
Proof.
  change ty_vesting44 with (TStruct (map field [bytesN 20; TNum U32; TNum U32; TNum U64; TNum U64])).
  eapply reads_weaken; [|apply reads_struct; repeat constructor; [apply reads_bytes|apply (reads_num U32); reflexivity|apply (reads_num U32); reflexivity|apply (reads_num U64); reflexivity|apply (reads_num U64); reflexivity]].
  intros v e (vs & -> & Hf).
  destruct vs as [|v1 vs]; cbn [read_fields] in Hf; [tauto|]. destruct Hf as (e1 & r1 & -> & (-> & A1) & Hf).
  destruct vs as [|v2 vs]; [tauto|]. destruct Hf as (e2 & r2 & -> & (z2 & -> & R2 & ->) & Hf).
  destruct vs as [|v3 vs]; [tauto|]. destruct Hf as (e3 & r3 & -> & (z3 & -> & R3 & ->) & Hf).
  destruct vs as [|v4 vs]; [tauto|]. destruct Hf as (e4 & r4 & -> & (z4 & -> & R4 & ->) & Hf).
  destruct vs as [|v5 vs]; [tauto|]. destruct Hf as (e5 & r5 & -> & (z5 & -> & R5 & ->) & Hf).
  destruct vs as [|? ?]; [|tauto]. subst r5. rewrite app_nil_r. exists e1, z2, z3, z4, z5. auto 8.
Qed.
Lemma reads_hp : reads ty_htlc_params (fun v e => exists sn rc h n to, v = VStruct [vbytes sn; vbytes rc; v_hash h; VNum n; VNum to] /\ array 20 sn /\ array 20 rc /\ hash_ok h /\ u8 n /\ u32 to /\
  e = sn ++ rc ++ (Algorithm h :: Bytes h) ++ be 1 n ++ be 4 to).
Proof.
  change ty_htlc_params with (TStruct (map field [bytesN 20; bytesN 20; ty_hash; TNum U8; TNum U32])).
  eapply reads_weaken; [|apply reads_struct; repeat constructor; [apply reads_bytes|apply reads_bytes|apply reads_hash|apply (reads_num U8); reflexivity|apply (reads_num U32); reflexivity]].
  intros v e (vs & -> & Hf).
  destruct vs as [|v1 vs]; cbn [read_fields] in Hf; [tauto|]. destruct Hf as (e1 & r1 & -> & (-> & A1) & Hf).
  destruct vs as [|v2 vs]; [tauto|]. destruct Hf as (e2 & r2 & -> & (-> & A2) & Hf).
  destruct vs as [|v3 vs]; [tauto|]. destruct Hf as (e3 & r3 & -> & (h & -> & Hh & ->) & Hf).
  destruct vs as [|v4 vs]; [tauto|]. destruct Hf as (e4 & r4 & -> & (z4 & -> & R4 & ->) & Hf).
  destruct vs as [|v5 vs]; [tauto|]. destruct Hf as (e5 & r5 & -> & (z5 & -> & R5 & ->) & Hf).
  destruct vs as [|? ?]; [|tauto]. subst r5. rewrite app_nil_r. exists e1, e2, h, z4, z5. auto 8.
Qed.
Lemma safe_v24 : well_declared codec_safe ty_vesting24.
Proof. change ty_vesting24 with (TStruct (map field [bytesN 20; TNum U32])). declared. Qed.
Lemma safe_v36 : well_declared codec_safe ty_vesting36.
Proof. change ty_vesting36 with (TStruct (map field [bytesN 20; TNum U32; TNum U32; TNum U64])). declared. Qed.
Lemma safe_v44 : well_declared codec_safe ty_vesting44.
Proof. change ty_vesting44 with (TStruct (map field [bytesN 20; TNum U32; TNum U32; TNum U64; TNum U64])). declared. Qed.
Lemma safe_hp : well_declared codec_safe ty_htlc_params.
Proof. change ty_htlc_params with (TStruct (map field [bytesN 20; bytesN 20; ty_hash; TNum U8; TNum U32])). declared. Qed.

Lemma enc_v24 o b : array 20 o -> u32 b -> enc ty_vesting24 no_tags (VStruct [vbytes o; VNum b]) (o ++ be 4 b).
Proof. intros H1 H2. apply enc_struct. enc_fields_tac; first [apply (enc_int U32); assumption | apply enc_bytesN; assumption]. Qed.
Lemma enc_v36 o st b am : array 20 o -> u32 st -> u32 b -> u64 am ->
  enc ty_vesting36 no_tags (VStruct [vbytes o; VNum st; VNum b; VNum am]) (o ++ be 4 st ++ be 4 b ++ be 8 am).
Proof.
  intros H1 H2 H3 H4. apply enc_struct.
  enc_fields_tac; first [apply (enc_int U32); assumption | apply (enc_int U64); assumption | apply enc_bytesN; assumption].
Qed.
Lemma enc_v44 o st b am tot : array 20 o -> u32 st -> u32 b -> u64 am -> u64 tot ->
  enc ty_vesting44 no_tags (VStruct [vbytes o; VNum st; VNum b; VNum am; VNum tot]) (o ++ be 4 st ++ be 4 b ++ be 8 am ++ be 8 tot).
Proof.
  intros H1 H2 H3 H4 H5. apply enc_struct.
  enc_fields_tac; first [apply (enc_int U32); assumption | apply (enc_int U64); assumption | apply enc_bytesN; assumption].
Qed.
Lemma enc_hp sn rc h n to : array 20 sn -> array 20 rc -> hash_ok h -> u8 n -> u32 to ->
  enc ty_htlc_params no_tags (VStruct [vbytes sn; vbytes rc; v_hash h; VNum n; VNum to])
    (sn ++ rc ++ (Algorithm h :: Bytes h) ++ be 1 n ++ be 4 to).
Proof.
  intros H1 H2 H3 H4 H5. apply enc_struct.
  enc_fields_tac; first [apply (enc_int U32); assumption | apply (enc_int U8); assumption | apply enc_bytesN; assumption | apply enc_custom, hash_encodes; assumption].
Qed.
Lemma zlen_be n z : zlen (be n z) = Z.of_nat n.
Proof. unfold zlen, be. rewrite big_endian_length. reflexivity. Qed.
Lemma zlen_array n b : array n b -> zlen b = Z.of_nat n.
Proof. intros (E & _). unfold zlen. rewrite E. reflexivity. Qed.
Lemma init_ok x typ height balance a : contract_from typ (x_data x) (x_value x) balance a -> Account_Init typ (TExtended x) height balance = Ok a.
Proof.
  intros [(-> & c & -> & Hc)|(-> & h & -> & Hh)]; unfold Account_Init; cbn [Z.eqb Pos.eqb].
  - destruct c as [cv co cs csb csa ct]. unfold vesting_from in Hc. cbn [v_value v_owner v_start v_step_blocks v_step_amount v_total] in Hc.
    destruct Hc as (-> & Ho & Hst & Hbl & Ham & Htot & Hc). pose proof (zlen_array _ _ Ho) as Hl. unfold Vesting_Init. cbn [as_extended bind].
    destruct Hc as [(E & -> & -> & ->)|[(E & ->)|E]]; rewrite E, !zlen_app, !zlen_be, Hl; cbn [Z.of_nat Pos.of_succ_nat Pos.succ Z.add Pos.add Z.eqb Pos.eqb].
    + rewrite (read_full_enc _ _ _ (enc_v24 _ _ Ho Hbl)). cbn [bind fld nth num_of]. rewrite num_bytes. reflexivity.
    + rewrite (read_full_enc _ _ _ (enc_v36 _ _ _ _ Ho Hst Hbl Ham)). cbn [bind fld nth num_of]. rewrite num_bytes. reflexivity.
    + rewrite (read_full_enc _ _ _ (enc_v44 _ _ _ _ _ Ho Hst Hbl Ham Htot)). cbn [bind fld nth num_of]. rewrite num_bytes. reflexivity.
  - destruct h as [hv hs hr hh hc ht htot]. unfold htlc_from in Hh. cbn [h_value h_sender h_recipient h_hash h_count h_timeout h_total] in Hh.
    destruct Hh as (-> & H1 & H2 & H3 & H4 & H5 & -> & Hn & E). unfold HTLC_Init. cbn [as_extended bind].
    rewrite E, (read_full_enc _ _ _ (enc_hp _ _ _ _ _ H1 H2 H3 H4 H5)). cbn [bind fld nth num_of]. rewrite !num_bytes, hash_of_v.
    destruct (Z.eqb_spec hc 0); [contradiction|]. reflexivity.
Qed.
Theorem init_spec x typ height balance : tx_ok (TExtended x) -> u64 balance -> typ = 1 \/ typ = 2 ->
  (exists a, Account_Init typ (TExtended x) height balance = Ok a /\ contract_from typ (x_data x) (x_value x) balance a /\ account_ok a) \/
  (exists e, Account_Init typ (TExtended x) height balance = Err e).
Proof.
  intros Hx Hb Htyp. destruct (tx_ok_ext x Hx) as (Hd & _ & Hv & _). unfold Account_Init. destruct Htyp as [->| ->]; cbn [Z.eqb Pos.eqb].
  - unfold Vesting_Init. cbn [as_extended bind].
    destruct (Z.eqb_spec (zlen (x_data x)) 24) as [H24|H24]; [|destruct (Z.eqb_spec (zlen (x_data x)) 36) as [H36|H36];
      [|destruct (Z.eqb_spec (zlen (x_data x)) 44) as [H44|H44]]].
    + destruct (read_full_inv _ _ _ safe_v24 reads_v24 Hd) as [(e & ->)|(v & Ev & o & b & -> & Ho & Hbl & E)]; [right; exists e; reflexivity|].
      left. rewrite Ev. cbn [bind fld nth num_of]. rewrite num_bytes. eexists. split; [reflexivity|]. split.
      * left. split; [reflexivity|]. eexists. split; [reflexivity|]. unfold vesting_from, u32. cbn [v_value v_owner v_start v_step_blocks v_step_amount v_total].
        split; [reflexivity|]. split; [exact Ho|]. split; [lia|]. split; [exact Hbl|]. split; [exact Hv|]. split; [exact Hv|]. left. auto.
      * cbn [account_ok v_value v_owner v_start v_step_blocks v_step_amount v_total]. unfold u32. split; [exact Hb|]. split; [exact Ho|]. split; [lia|]. auto.
    + destruct (read_full_inv _ _ _ safe_v36 reads_v36 Hd) as [(e & ->)|(v & Ev & o & st & b & am & -> & Ho & Hst & Hbl & Ham & E)]; [right; exists e; reflexivity|].
      left. rewrite Ev. cbn [bind fld nth num_of]. rewrite num_bytes. eexists. split; [reflexivity|]. split.
      * left. split; [reflexivity|]. eexists. split; [reflexivity|]. unfold vesting_from. cbn [v_value v_owner v_start v_step_blocks v_step_amount v_total].
        repeat (split; [first [reflexivity | assumption]|]). right. left. auto.
      * cbn [account_ok v_value v_owner v_start v_step_blocks v_step_amount v_total]. auto 8.
    + destruct (read_full_inv _ _ _ safe_v44 reads_v44 Hd) as [(e & ->)|(v & Ev & o & st & b & am & tot & -> & Ho & Hst & Hbl & Ham & Htot & E)]; [right; exists e; reflexivity|].
      left. rewrite Ev. cbn [bind fld nth num_of]. rewrite num_bytes. eexists. split; [reflexivity|]. split.
      * left. split; [reflexivity|]. eexists. split; [reflexivity|]. unfold vesting_from. cbn [v_value v_owner v_start v_step_blocks v_step_amount v_total].
        repeat (split; [first [reflexivity | assumption]|]). right. right. exact E.
      * cbn [account_ok v_value v_owner v_start v_step_blocks v_step_amount v_total]. auto 8.
    + right. exists EBadVesting. reflexivity.
  - unfold HTLC_Init. cbn [as_extended bind].
    destruct (read_full_inv _ _ _ safe_hp reads_hp Hd) as [(e & ->)|(v & Ev & sn & rc & h & n & to & -> & H1 & H2 & H3 & H4 & H5 & E)]; [right; exists e; reflexivity|].
    rewrite Ev. cbn [bind fld nth num_of]. rewrite !num_bytes, hash_of_v. destruct (Z.eqb_spec n 0) as [->|Hn].
    + right. exists EBadHashCount. reflexivity.
    + left. eexists. split; [reflexivity|]. split.
      * right. split; [reflexivity|]. eexists. split; [reflexivity|]. unfold htlc_from. cbn [h_value h_sender h_recipient h_hash h_count h_timeout h_total].
        repeat (split; [first [reflexivity | assumption]|]). exact E.
      * cbn [account_ok h_value h_sender h_recipient h_hash h_count h_timeout h_total]. auto 8.
Qed.
(** The parameters determine the contract. *)
Lemma contract_from_unique typ data value balance a b :
  contract_from typ data value balance a -> contract_from typ data value balance b -> a = b.
Proof.
  intros Ha Hb. set (x := MkExtendedTx data [] 0 [] typ value 0 0 0 0 []).
  pose proof (init_ok x typ 0 balance a Ha) as Ea. pose proof (init_ok x typ 0 balance b Hb) as Eb. congruence.
Qed.

(** C05, C70, C103: patterns, keys and answers given as text are the bytes that base58 and base64 say they are. *)
From Verif Require Import Base DataModel FilterModel FilterSpec FilterProofs FilterProps Base58Model Base58Proofs Base64Model EncodingSpec StoreModel StoreSpec DispatchModel RpcModel RpcProps RpcSnapshotProps RpcTextModel.

(** ** Base64 *)
Lemma value64 c s : b64_value c = Some s <-> sym64 s c.
Proof.
  assert (forall c, match b64_value c with Some s => sym64 s c | None => forall s, ~ sym64 s c end) as H.
  { clear. intros c. pose proof (n2b_b2n c) as Hc. pose proof (b2n_lt c) as Hl. rewrite <- Hc. generalize dependent (b2n c). clear. intros n _ Hn.
    assert (forallb (fun n => match b64_value (n2b n) with
      | Some s => ((s <? 26) && (n =? 65 + s)) || ((26 <=? s) && (s <? 52) && (n =? 97 + (s - 26))) || ((52 <=? s) && (s <? 62) && (n =? 48 + (s - 52))) || ((s =? 62) && (n =? 43)) || ((s =? 63) && (n =? 47))
      | None => negb (((65 <=? n) && (n <=? 90)) || ((97 <=? n) && (n <=? 122)) || ((48 <=? n) && (n <=? 57)) || (n =? 43) || (n =? 47)) end) (N.of_nat <$> seq 0 256) = true) as Hall by (by vm_compute).
    rewrite forallb_forall in Hall. specialize (Hall n). assert (List.In n (N.of_nat <$> seq 0 256)) as Hin.
    { apply elem_of_list_In, elem_of_list_fmap. exists (N.to_nat n). split; [lia|]. apply elem_of_seq. lia. }
    specialize (Hall Hin). unfold sym64. rewrite b2n_n2b, N.mod_small by done. destruct (b64_value (n2b n)) as [s|]; [lia|]. intros s Hs. lia. }
  specialize (H c). split.
  - intros Hv. by rewrite Hv in H.
  - intros Hs. destruct (b64_value c) as [s'|]; [|by destruct (H s)]. f_equal. unfold sym64 in *. lia.
Qed.
Lemma sym_lt s c : sym64 s c -> s < 64.
Proof. unfold sym64. lia. Qed.
Lemma sym_pad s c : sym64 s c -> c <> b64_pad.
Proof. intros H ->. unfold sym64, b64_pad in H. rewrite b2n_n2b in H. simpl in H. lia. Qed.
Lemma pad_61 e : b2n e = 61 <-> e = b64_pad.
Proof. split; [|by intros ->]. intros H. apply b2n_inj. by rewrite H. Qed.
Lemma b2n_small n : n < 256 -> b2n (n2b n) = n.
Proof. intros H. by rewrite b2n_n2b, N.mod_small. Qed.
Lemma byte_eq n x : n < 256 -> n2b n = x <-> b2n x = n.
Proof. intros H. split; [intros <-; by apply b2n_small|]. intros <-. apply n2b_b2n. Qed.
(** Division facts, for [lia]. *)
Ltac dm a b := let q := fresh "q" in let r := fresh "r" in
  pose proof (N.div_mod a b ltac:(lia)); pose proof (N.mod_lt a b ltac:(lia)); set (q := a / b) in *; set (r := a mod b) in *; clearbody q r.
Lemma quad_spec c1 c2 c3 c4 v : b64_quad c1 c2 c3 c4 = Some v <-> exists x y z s1 s2 s3 s4, v = [x; y; z] /\ sym64 s1 c1 /\ sym64 s2 c2 /\ sym64 s3 c3 /\ sym64 s4 c4 /\
  (b2n x * 256 + b2n y) * 256 + b2n z = ((s1 * 64 + s2) * 64 + s3) * 64 + s4.
Proof.
  unfold b64_quad. split.
  - destruct (b64_value c1) as [s1|] eqn:H1; [|done]. destruct (b64_value c2) as [s2|] eqn:H2; [|done]. destruct (b64_value c3) as [s3|] eqn:H3; [|done]. destruct (b64_value c4) as [s4|] eqn:H4; [|done].
    cbn [mbind option_bind]. intros [= <-]. apply value64 in H1, H2, H3, H4. exists (n2b (s1 * 4 + s2 / 16)), (n2b (s2 mod 16 * 16 + s3 / 4)), (n2b (s3 mod 4 * 64 + s4)), s1, s2, s3, s4.
    split; [done|]. do 4 (split; [done|]). apply sym_lt in H1, H2, H3, H4. dm s2 16. dm s3 4. rewrite !b2n_small by lia. lia.
  - intros (x & y & z & s1 & s2 & s3 & s4 & -> & H1 & H2 & H3 & H4 & He). pose proof (sym_lt _ _ H1). pose proof (sym_lt _ _ H2). pose proof (sym_lt _ _ H3). pose proof (sym_lt _ _ H4).
    apply value64 in H1 as ->, H2 as ->, H3 as ->, H4 as ->. cbn [mbind option_bind]. pose proof (b2n_lt x). pose proof (b2n_lt y). pose proof (b2n_lt z).
    dm s2 16. dm s3 4. f_equal. f_equal; [apply byte_eq; lia|]. f_equal; [apply byte_eq; lia|]. f_equal. apply byte_eq; lia.
Qed.
Lemma last_spec c1 c2 c3 c4 v : b64_last c1 c2 c3 c4 = Some v <-> v <> [] /\ base64_text v [c1; c2; c3; c4].
Proof.
  unfold b64_last. case_bool_decide as H4; [case_bool_decide as H3|].
  - subst. split.
    + destruct (b64_value c1) as [s1|] eqn:H1; [|done]. destruct (b64_value c2) as [s2|] eqn:H2; [|done]. cbn [mbind option_bind]. destruct (N.eqb_spec (s2 mod 16) 0) as [Hm|]; [|done]. intros [= <-].
      apply value64 in H1, H2. split; [done|]. eapply b64_one; [done|done|done|done|]. apply sym_lt in H1, H2. dm s2 16. rewrite b2n_small by lia. lia.
    + intros [_ H]. inversion H; subst; try (by exfalso; eapply sym_pad; [eassumption|done]).
      match goal with Ha : sym64 _ c1, Hb : sym64 _ c2 |- _ => rename Ha into H1; rename Hb into H2 end. pose proof (sym_lt _ _ H1). pose proof (sym_lt _ _ H2). apply value64 in H1 as ->, H2 as ->.
      cbn [mbind option_bind]. pose proof (b2n_lt x). dm s2 16. destruct (N.eqb_spec r 0) as [->|]; [|lia]. do 2 f_equal. apply byte_eq; lia.
  - subst. split.
    + destruct (b64_value c1) as [s1|] eqn:H1; [|done]. destruct (b64_value c2) as [s2|] eqn:H2; [|done]. destruct (b64_value c3) as [s3|] eqn:H3'; [|done]. cbn [mbind option_bind].
      destruct (N.eqb_spec (s3 mod 4) 0) as [Hm|]; [|done]. intros [= <-]. apply value64 in H1, H2, H3'. split; [done|]. eapply b64_two; [done|done|done|done|]. apply sym_lt in H1, H2, H3'. dm s2 16. dm s3 4.
      rewrite !b2n_small by lia. lia.
    + intros [_ H]. inversion H; subst; try (by exfalso; eapply sym_pad; [eassumption|done]); [|by exfalso; apply H3, pad_61].
      match goal with Ha : sym64 _ c1, Hb : sym64 _ c2, Hc : sym64 _ c3 |- _ => rename Ha into H1; rename Hb into H2; rename Hc into H5 end. pose proof (sym_lt _ _ H1). pose proof (sym_lt _ _ H2). pose proof (sym_lt _ _ H5).
      apply value64 in H1 as ->, H2 as ->, H5 as ->. cbn [mbind option_bind]. pose proof (b2n_lt x). pose proof (b2n_lt y). dm s2 16. dm s3 4. destruct (N.eqb_spec r0 0) as [->|]; [|lia].
      do 2 f_equal; [apply byte_eq; lia|]. f_equal. apply byte_eq; lia.
  - rewrite quad_spec. split.
    + intros (x & y & z & s1 & s2 & s3 & s4 & -> & ? & ? & ? & ? & ?). split; [done|]. eapply b64_three; try done. constructor.
    + intros [_ H]. inversion H; subst; try (by exfalso; apply H4, pad_61).
      match goal with Hn : base64_text _ [] |- _ => inversion Hn; subst end. do 7 eexists. split; [done|]. do 4 (split; [eassumption|]). eassumption.
Qed.
(** C05: a text is read as [b] exactly if it is the base64 text of [b]; every byte string has exactly one. *)
Lemma decode64_aux n : forall t b, (length t <= n)%nat -> b64_decode t = Some b <-> base64_text b t.
Proof.
  induction n as [|n IH]; intros t b Hl.
  { destruct t; [|simpl in Hl; lia]. simpl. split; [intros [= <-]; constructor|]. intros H. by inversion H. }
  destruct t as [|c1 [|c2 [|c3 [|c4 r]]]]; simpl; [split; [intros [= <-]; constructor|intros H; by inversion H]| | | |].
  1-3: split; [done|intros H; by inversion H].
  destruct r as [|c5 r].
  - rewrite last_spec. split; [by intros [_ ?]|]. intros H. split; [|done]. intros ->. inversion H.
  - split.
    + destruct (b64_quad c1 c2 c3 c4) as [v|] eqn:Hq; [|done]. cbn [mbind option_bind]. destruct (b64_decode (c5 :: r)) as [w|] eqn:Hd; [|done]. cbn [mbind option_bind]. intros [= <-].
      apply quad_spec in Hq as (x & y & z & s1 & s2 & s3 & s4 & -> & ? & ? & ? & ? & ?). simpl. eapply b64_three; try done. apply IH; [simpl in *; lia|done].
    + intros H. inversion H; subst. assert (b64_quad c1 c2 c3 c4 = Some [x; y; z]) as ->. { apply quad_spec. do 7 eexists. split; [done|]. do 4 (split; [eassumption|]). eassumption. }
      cbn [mbind option_bind]. assert (b64_decode (c5 :: r) = Some r0) as ->; [|done]. apply IH; [simpl in *; lia|done].
Qed.
Theorem C05_base64_exact : forall t b, b64_decode t = Some b <-> base64_text b t.
Proof. intros t b. by apply (decode64_aux (length t)). Qed.
Print Assumptions C05_base64_exact.
Lemma symbol64 s : s < 64 -> sym64 s (b64_symbol s).
Proof.
  intros H. apply value64. assert (forallb (fun s => bool_decide (b64_value (b64_symbol s) = Some s)) (N.of_nat <$> seq 0 64) = true) as Hall by (by vm_compute).
  rewrite forallb_forall in Hall. specialize (Hall s). rewrite bool_decide_eq_true in Hall. apply Hall. apply elem_of_list_In, elem_of_list_fmap. exists (N.to_nat s). split; [lia|]. apply elem_of_seq. lia.
Qed.
Lemma encode64_aux n : forall b, (length b <= n)%nat -> base64_text b (b64_encode b).
Proof.
  induction n as [|n IH]; intros b Hl; [destruct b; [constructor|simpl in Hl; lia]|]. destruct b as [|x [|y [|z r]]]; [constructor| | |].
  - cbn [b64_encode]. pose proof (b2n_lt x). dm (b2n x) 4. eapply b64_one; [apply symbol64; lia|apply symbol64; lia|done|done|lia].
  - cbn [b64_encode]. pose proof (b2n_lt x). pose proof (b2n_lt y). dm (b2n x) 4. dm (b2n y) 16. eapply b64_two; [apply symbol64; lia|apply symbol64; lia|apply symbol64; lia|done|lia].
  - cbn [b64_encode app]. pose proof (b2n_lt x). pose proof (b2n_lt y). pose proof (b2n_lt z). dm (b2n x) 4. dm (b2n y) 16. dm (b2n z) 64.
    eapply b64_three; [apply symbol64; lia|apply symbol64; lia|apply symbol64; lia|apply symbol64; lia|lia|]. apply IH. simpl in Hl. lia.
Qed.
Lemma encode64 b : base64_text b (b64_encode b).
Proof. by apply (encode64_aux (length b)). Qed.
Lemma text64_fun b t t' : base64_text b t -> base64_text b t' -> t = t'.
Proof.
  assert (forall s s' c c', sym64 s c -> sym64 s' c' -> s = s' -> c = c') as Hc by (intros s s' c c' H H' <-; apply b2n_inj; unfold sym64 in *; lia).
  intros H. revert t'. induction H as [|x y z r s1 s2 s3 s4 c1 c2 c3 c4 t H1 H2 H3 H4 He Ht IH|x y s1 s2 s3 c1 c2 c3 e H1 H2 H3 H4 He|x s1 s2 c1 c2 e f H1 H2 H3 H4 He]; intros t' H'; inversion H'; subst; [done|..].
  - repeat match goal with Hs : sym64 _ _ |- _ => pose proof (sym_lt _ _ Hs); revert Hs end. intros.
    f_equal; [eapply Hc; [eassumption..|lia]|]. f_equal; [eapply Hc; [eassumption..|lia]|]. f_equal; [eapply Hc; [eassumption..|lia]|]. f_equal; [eapply Hc; [eassumption..|lia]|]. by apply IH.
  - repeat match goal with Hs : sym64 _ _ |- _ => pose proof (sym_lt _ _ Hs); revert Hs end. intros.
    f_equal; [eapply Hc; [eassumption..|lia]|]. f_equal; [eapply Hc; [eassumption..|lia]|]. f_equal; [eapply Hc; [eassumption..|lia]|]. f_equal. apply b2n_inj. congruence.
  - repeat match goal with Hs : sym64 _ _ |- _ => pose proof (sym_lt _ _ Hs); revert Hs end. intros.
    f_equal; [eapply Hc; [eassumption..|lia]|]. f_equal; [eapply Hc; [eassumption..|lia]|]. f_equal; [apply b2n_inj; congruence|]. f_equal. apply b2n_inj. congruence.
Qed.
Lemma text64_iff b t : base64_text b t <-> t = b64_encode b.
Proof. split; [intros H; eapply text64_fun; [done|apply encode64]|intros ->; apply encode64]. Qed.

(** ** Base58 *)
Lemma number_unradix base ds : number base ds = unradix base (reverse ds).
Proof.
  unfold number. induction ds as [|d ds IH] using rev_ind; [done|]. rewrite foldl_app. simpl. rewrite IH, reverse_app. simpl. lia.
Qed.
Lemma letter_value d c : letter58 d c <-> b58_value c = Some d.
Proof.
  assert (letter58 d c <-> b58_alphabet !! N.to_nat d = Some c) as -> by (unfold letter58; by replace (String.list_byte_of_string _) with b58_alphabet by reflexivity).
  split.
  - intros H. assert (d < 58) as Hd by (apply lookup_lt_Some in H; change (length b58_alphabet) with 58%nat in H; lia). rewrite <- (symbol_value d Hd). unfold b58_symbol. by rewrite H.
  - intros H. apply value_symbol in H as [Hd <-]. unfold b58_symbol. destruct (b58_alphabet !! N.to_nat d) eqn:He; [done|]. apply lookup_ge_None in He. change (length b58_alphabet) with 58%nat in He. lia.
Qed.
Lemma zero_byte x : b2n x = 0 <-> x = n2b 0.
Proof. split; [|by intros ->]. intros H. apply b2n_inj. by rewrite H. Qed.
Lemma zero_head (l : bytes) : head (b2n <$> l) <> Some 0 <-> head l <> Some (n2b 0).
Proof. destruct l as [|x l]; simpl; [done|]. pose proof (zero_byte x) as H. split; intros Hn [= Hx]; apply Hn; f_equal; by apply H. Qed.
Lemma text58_iff b t : base58_text b t <-> t = b58_encode b.
Proof.
  unfold base58_text, b58_encode. split.
  - intros (k & rest & ds & letters & -> & -> & Hl & Hr & Hd & Hn). assert (b2n <$> replicate k (n2b 0) ++ rest = replicate k 0 ++ (b2n <$> rest)) as Hb by (rewrite fmap_app, fmap_replicate; done).
    rewrite Hb, zeros_app by (by apply zero_head). rewrite fmap_app, fmap_replicate. f_equal.
    assert (letters = b58_symbol <$> ds) as ->. { clear -Hl. induction Hl as [|d c ds l H Hl IH]; [done|]. rewrite fmap_cons, IH. f_equal. apply letter_value, value_symbol in H as [_ <-]. done. }
    f_equal. rewrite unle_unradix, <- rev_fmap, Hb, reverse_app, unradix_app, reverse_replicate, unradix_zeros, N.mul_0_r, N.add_0_r, <- number_unradix, <- Hn, number_unradix.
    rewrite radix_unradix; [by rewrite reverse_involutive|done| |by apply rev_ends].
    apply Forall_reverse. clear -Hl. induction Hl as [|d c ds l H Hl IH]; [constructor|]. constructor; [|done]. by apply letter_value, value_symbol in H as [? _].
  - intros ->. destruct (zeros_split (b2n <$> b)) as (l & Hl & Hh). set (k := zeros (b2n <$> b)) in *.
    assert (b = replicate k (n2b 0) ++ (n2b <$> l)) as Hb by (rewrite <- (n2bs b), Hl, fmap_app, fmap_replicate; done).
    assert (b2n <$> (n2b <$> l) = l) as Hll. { apply bytes_back. pose proof (bytes_small b) as Hs. rewrite Hl in Hs. by apply Forall_app in Hs as [_ ?]. }
    exists k, (n2b <$> l), (reverse (radix 58 (unle (reverse b)))), (b58_symbol <$> reverse (radix 58 (unle (reverse b)))). split; [done|]. split; [by rewrite fmap_app, fmap_replicate|].
    split. { pose proof (radix_small 58 (unle (reverse b)) ltac:(lia)) as Hs. apply Forall_reverse in Hs. induction Hs as [|d ds Hd Hs IH]; [constructor|]. rewrite fmap_cons. constructor; [apply letter_value; by apply symbol_value|done]. }
    split; [apply zero_head; by rewrite Hll|]. split; [apply rev_ends; rewrite reverse_involutive; by apply radix_ends|].
    rewrite number_unradix, reverse_involutive, unradix_radix by done. rewrite unle_unradix, <- rev_fmap, Hl, reverse_app, unradix_app, reverse_replicate, unradix_zeros, N.mul_0_r, N.add_0_r. by rewrite Hll, number_unradix.
Qed.
(** C05: likewise for base58. *)
Theorem C05_base58_exact : forall t b, b58_decode t = Some b <-> base58_text b t.
Proof. intros t b. rewrite text58_iff. split; [intros H; symmetry; by apply b58_back|]. intros ->. apply b58_round. Qed.
Print Assumptions C05_base58_exact.
Theorem C05_key_text_exact : forall t pk, pk_parse t = Some pk <-> pk < 2 ^ 256 /\ base58_text (le 32 pk) t.
Proof.
  intros t pk. rewrite text58_iff. split; [intros H; apply pk_parse_text in H as [-> H]; by split|]. intros [H ->]. by apply pk_round.
Qed.
Print Assumptions C05_key_text_exact.
(** C05: the three ways to write a pattern accept the same data: that which has the pattern at the offset. *)
Theorem C05_standard_texts : forall E p t58 t64 o, standard_texts E -> base58_text p t58 -> base64_text p t64 ->
  Forall (fun d => forall data, exists b, allows E (MemcmpC (Memcmp o d)) data = Done b /\ (b = true <-> exists before after, data = before ++ p ++ after /\ lenN before = o))
    [MBytes p; MBase58 t58; MBase64 t64].
Proof.
  intros E p t58 t64 o HE H58 H64. apply C05_base58_exact in H58. apply C05_base64_exact in H64.
  assert (forall d, pattern E d = Some p -> forall data, exists b, allows E (MemcmpC (Memcmp o d)) data = Done b /\ (b = true <-> exists before after, data = before ++ p ++ after /\ lenN before = o)) as H.
  { intros d Hd data. destruct (C05_condition_meaning E (MemcmpC (Memcmp o d)) data) as (b & Hb & Hh); [simpl; by rewrite Hd; eauto|]. exists b. split; [done|]. rewrite Hh. simpl. rewrite Hd. naive_solver. }
  repeat (apply Forall_cons; split; [apply H; simpl; rewrite ?(std_b58 E HE), ?(std_b64 E HE); done|]). constructor.
Qed.
Print Assumptions C05_standard_texts.

(** ** Answers *)
(** C70: the text of an answer in base64 is the base64 text of the part of the data that was asked for, ... *)
Theorem C70_base64_text : forall E parse a cfg u d, convert E parse a cfg = Done u -> plain E a d ->
  cfg ≫= ac_encoding = None \/ cfg ≫= ac_encoding = Some UBase64 ->
  exists x t, ui_text (u_data u) = Some t /\ base64_text x t /\ wanted d (cfg ≫= ac_slice) x.
Proof.
  intros E parse a cfg u d Hu Hd Henc. destruct (C70_base64_exact E parse a cfg u d Hu Hd) as (_ & _ & _ & _ & _ & x & Hx & Hw); [tauto|].
  exists x, (b64_encode x). split; [|split; [apply encode64|done]]. rewrite Hx. by destruct Henc as [-> | ->].
Qed.
Print Assumptions C70_base64_text.
(** ... that of an answer in base58 is its base58 text, as long as it is not more than 128 bytes. *)
Theorem C70_base58_text_partial : forall E parse a cfg u d, convert E parse a cfg = Done u -> plain E a d ->
  cfg ≫= ac_encoding = Some UBinary \/ cfg ≫= ac_encoding = Some UBase58 ->
  exists x, wanted d (cfg ≫= ac_slice) x /\ (lenN x <= 128 -> exists t, ui_text (u_data u) = Some t /\ base58_text x t) /\ (128 < lenN x -> exists e, u_data u = UTooLong e).
Proof.
  intros E parse a cfg u d Hu Hd Henc.
  assert (exists u', convert E parse a (Some (AccConfig None (cfg ≫= ac_slice) None None)) = Done u') as [u' Hu'].
  { unfold convert, to_solana in *. unfold plain in Hd. rewrite Hd. simpl. eauto. }
  destruct (C70_base64_exact E parse a _ u' d Hu' Hd) as (_ & _ & _ & _ & _ & x & Hx & Hw); [by left|]. exists x. split; [done|].
  unfold convert, to_solana in Hu, Hu'. unfold plain in Hd. rewrite Hd in Hu, Hu'. simpl in Hu, Hu'. injection Hu' as <-. simpl in Hx. injection Hx as Hx. injection Hu as <-. simpl. rewrite Hx.
  destruct Henc as [-> | ->]; simpl; destruct (N.leb_spec (lenN x) 128) as [Hl|Hl].
  all: split; [intros Hl'|intros Hl'; try lia; eauto]; try lia; (eexists; split; [done|by apply text58_iff]).
Qed.
Print Assumptions C70_base58_text_partial.
(** C103: the text of a snapshot is the base64 text of the storage's snapshot of the program whose key has the text that was asked for. *)
Theorem C103_snapshot_text : forall S (J : iface S) st text r t, rpc_snapshot pk_parse J st text = Done r -> snapshot_text r = RPlain t ->
  exists p b, p < 2 ^ 256 /\ base58_text (le 32 p) text /\ i_snapshot J st p = Done (ROk b) /\ base64_text b t.
Proof.
  intros S J st text r t Hr Ht. pose proof (C103_snapshot_answers S J st text r Hr) as H. destruct r as [s b|b| |]; try done. simpl in Ht. injection Ht as <-. destruct H as (p & -> & Hp & Hs).
  exists p, b. split; [done|]. split; [by apply text58_iff|]. split; [done|apply encode64].
Qed.
Print Assumptions C103_snapshot_text.

(** ** Examples *)
From Coq Require String.
Import String.StringSyntax.
#[local] Delimit Scope string_scope with string.
Notation tx s := (String.list_byte_of_string s%string).
(** The test vectors of RFC 4648, section 10, texts that are none, and base58 with leading zeros. *)
Example C05_example_texts :
  base64_text (tx "f") (tx "Zg==") /\ base64_text (tx "fo") (tx "Zm8=") /\ base64_text (tx "foo") (tx "Zm9v") /\ base64_text (tx "foobar") (tx "Zm9vYmFy") /\
  Forall (fun t => forall b, ~ base64_text b t) [tx "Zh=="; tx "Zg="; tx "Zg"; tx "Zg==Zg=="; tx "Zm9-"; tx "===="] /\
  base58_text (bs [0; 0; 1; 0]) (tx "115R") /\ base58_text (tx "hello world") (tx "StV1DL6CwTryKyV") /\ (forall b, ~ base58_text b (tx "0")).
Proof.
  do 4 (split; [apply text64_iff; by vm_compute|]). split.
  { repeat (apply Forall_cons; split; [intros b H; apply C05_base64_exact in H; by vm_compute in H|]). constructor. }
  do 2 (split; [apply text58_iff; by vm_compute|]). intros b H. apply C05_base58_exact in H. by vm_compute in H.
Qed.
Definition ext_std : ext := Ext b58_decode b64_decode (x_lz4c ext_sample) (x_lz4d ext_sample) (x_zstdc ext_sample) (x_zstdd ext_sample).
Example C05_example_standard : standard_texts ext_std /\ base58_text (bs [1; 0]) (tx "5R") /\ base64_text (bs [1; 0]) (tx "AQA=") /\
  allows ext_std (MemcmpC (Memcmp 1 (MBase58 (tx "5R")))) (bs [9; 1; 0; 7]) = Done true /\ allows ext_std (MemcmpC (Memcmp 1 (MBase64 (tx "AQA=")))) (bs [9; 1; 0; 7]) = Done true /\
  allows ext_std (MemcmpC (Memcmp 0 (MBase64 (tx "AQA=")))) (bs [9; 1; 0; 7]) = Done false.
Proof. split; [by constructor|]. split; [apply text58_iff; by vm_compute|]. split; [apply text64_iff; by vm_compute|]. split_and!; by vm_compute. Qed.
Example C70_example_text : exists u, convert ext_sample no_parse (mk_acct 5 7 1 (bs [1;8;9]) 10 1) (Some (AccConfig None (Some (1, 5)) None None)) = Done u /\ plain ext_sample (mk_acct 5 7 1 (bs [1;8;9]) 10 1) (bs [1;8;9]) /\
  ui_text (u_data u) = Some (tx "CAk=").
Proof. eexists. split; [vm_compute; reflexivity|]. split; [done|by vm_compute]. Qed.
Example C70_example_text58 : exists u, convert ext_sample no_parse (mk_acct 5 7 1 (bs [1;8;9]) 10 1) (Some (AccConfig (Some UBase58) None None None)) = Done u /\ plain ext_sample (mk_acct 5 7 1 (bs [1;8;9]) 10 1) (bs [1;8;9]) /\
  ui_text (u_data u) = Some (tx "M6Q").
Proof. eexists. split; [vm_compute; reflexivity|]. split; [done|by vm_compute]. Qed.
Example C103_example_text : exists st r t, rpc_snapshot pk_parse (child_iface ext_sample Lz4Model.lz4_sample admit_all map_to_list) (CMem st) (pk_text 7) = Done r /\ snapshot_text r = RPlain t.
Proof. destruct C103_snapshot_answers_example as (b & H & _). eexists _, _, _. split; [exact H|reflexivity]. Qed.

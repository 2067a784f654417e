(** Proofs about token program snapshots. *)
From Verif Require Import Base SMap DataModel BincodeModel BincodeProofs FilterModel StoreModel TokenModel TokenProofs SplModel SplProofs TokenUtilsModel
  TokenUtilsProofs TokenPendModel TokenPendSpec TokenPendProofs TokenStoreModel TokenStoreSpec TokenStoreProofs TokenStoreViews TokenStoreQuery Lz4Model TokenSnapSpec.
#[local] Arguments le : simpl never.
#[local] Arguments unle : simpl never.
#[local] Opaque to_bytes from_bytes peek_pubkey.

(** ** The sample compressor is lawful *)
Lemma ext_len_lit q r b : r < 255 -> ext_len (replicate q (n2b 255) ++ n2b r :: b) = Some (255 * N.of_nat q + r, b).
Proof.
  intros Hr. induction q as [|q IH].
  - cbn [replicate app ext_len]. rewrite b2n_n2b, N.mod_small by lia. rewrite (proj2 (N.eqb_neq _ _)) by lia. do 2 f_equal.
  - cbn [replicate app ext_len]. rewrite b2n_n2b, N.mod_small by lia. cbn [N.eqb Pos.eqb]. rewrite IH. do 2 f_equal. lia.
Qed.
Lemma lit_dec n b : lz4_block_dec n (lit_block b) = if lenN b <=? n then Some b else None.
Proof.
  assert (forall f (t : byte) b1, nibble_len (b2n t / 16) b1 = Some (lenN b, b) -> lz4_seqs (S f) n (t :: b1) [] = if lenN b <=? n then Some b else None) as Hgo.
  { intros f t b1 H. cbn [lz4_seqs]. rewrite H. rewrite (proj2 (N.ltb_ge _ _)) by lia.
    assert (N.to_nat (lenN b) = length b) as -> by (unfold lenN; lia).
    rewrite drop_all, firstn_all. cbn zeta. change (lenN (@nil byte)) with 0. rewrite orb_true_r. rewrite app_nil_r, rev_involutive.
    assert (lenN (rev b) = lenN b) as -> by (unfold lenN; by rewrite rev_length).
    destruct (N.ltb_spec n (lenN b)), (N.leb_spec (lenN b) n); try lia; done. }
  unfold lz4_block_dec, lit_block. destruct (N.ltb_spec (lenN b) 15) as [Hlt|Hge].
  - apply Hgo. rewrite b2n_n2b, N.mod_small by lia. replace (16 * lenN b / 16) with (lenN b) by (symmetry; rewrite N.mul_comm; by apply N.div_mul).
    unfold nibble_len. by rewrite (proj2 (N.eqb_neq _ _)) by lia.
  - apply Hgo. rewrite b2n_n2b. change (240 mod 256 / 16) with 15. unfold nibble_len. cbn [N.eqb Pos.eqb].
    rewrite ext_len_lit by (by apply N.mod_lt). do 2 f_equal. rewrite N2Nat.id. pose proof (N.div_mod (lenN b - 15) 255 ltac:(done)). lia.
Qed.
Lemma zero_dec n : lz4_block_dec n zero_block = if 24 <=? n then Some (replicate 24 (n2b 0)) else None.
Proof.
  unfold lz4_block_dec. change (length zero_block) with 10%nat. change zero_block with (n2b 30 :: (n2b <$> [0; 1; 0; 0x50; 0; 0; 0; 0; 0])).
  cbn [lz4_seqs].
  match goal with |- context [nibble_len ?x ?y] => change (nibble_len x y) with (Some (1, n2b <$> [0; 1; 0; 0x50; 0; 0; 0; 0; 0])) end. cbv beta iota.
  match goal with |- context [N.ltb ?x 1] => change (N.ltb x 1) with false end. cbv beta iota zeta.
  match goal with |- context [rev ?x ++ []] => change (rev x ++ []) with [n2b 0] end.
  match goal with |- context [drop ?i ?x] => change (drop i x) with (n2b <$> [1; 0; 0x50; 0; 0; 0; 0; 0]) end.
  change (lenN [n2b 0]) with 1.
  match goal with |- context [N.ltb ?x 8] => change (N.ltb x 8) with false end. rewrite orb_false_r.
  match goal with |- context [n2b <$> ?l] => change (n2b <$> l) with (n2b 1 :: n2b 0 :: (n2b <$> [0x50; 0; 0; 0; 0; 0])) end. cbv beta iota.
  match goal with |- context [nibble_len ?x ?y] => change (nibble_len x y) with (Some (14, n2b <$> [0x50; 0; 0; 0; 0; 0])) end. cbv beta iota.
  change (b2n (n2b 1) + 256 * b2n (n2b 0)) with 1. cbn [N.eqb Pos.eqb orb]. change (1 <? 1) with false. cbn [orb].
  change (copy_match (N.to_nat (14 + 4)) (N.to_nat 1) [n2b 0]) with (Some (replicate 19 (n2b 0))). cbv beta iota.
  change (1 + 12) with 13. change (1 + (14 + 4) + 5) with 24.
  destruct (N.leb_spec 24 n) as [H|H].
  - rewrite (proj2 (N.ltb_ge n 13)) by lia. rewrite (proj2 (N.ltb_ge n 24)) by lia.
    change (n2b <$> [0x50; 0; 0; 0; 0; 0]) with (n2b 0x50 :: (n2b <$> [0; 0; 0; 0; 0])). cbn [lz4_seqs].
    match goal with |- context [nibble_len ?x ?y] => change (nibble_len x y) with (Some (5, n2b <$> [0; 0; 0; 0; 0])) end. cbv beta iota.
    match goal with |- context [N.ltb ?x 5] => change (N.ltb x 5) with false end. cbv beta iota zeta.
    match goal with |- context [rev ?x ++ ?y] => change (rev x ++ y) with (replicate 24 (n2b 0)) end.
    match goal with |- context [drop ?i ?x] => change (drop i x) with (@nil byte) end. change (lenN (@nil byte) <? 8) with true. rewrite orb_true_r.
    change (lenN (replicate 24 (n2b 0))) with 24. rewrite (proj2 (N.ltb_ge n 24)) by lia. done.
  - destruct (n <? 13); [done|]. by rewrite (proj2 (N.ltb_lt n 24)).
Qed.
Lemma sample_lawful : lawful lz4_sample.
Proof.
  intros b c n H. change (sample_comp b = Some c) in H. unfold sample_comp in H. apply (inj Some) in H. subst c. change (lx_unblock lz4_sample) with lz4_block_dec. destruct (bool_decide_reflect (b = replicate 24 (n2b 0))) as [->|Hn].
  - rewrite zero_dec. change (lenN (replicate 24 (n2b 0))) with 24. destruct (N.leb_spec 24 n); split; [done|congruence|lia|done].
  - rewrite lit_dec. destruct (N.leb_spec (lenN b) n); split; [done|congruence|lia|done].
Qed.

(** ** The snapshot format *)
Ltac step_uint := unfold d_u8, d_u32, d_u64, e_u8, e_u32, e_u64; rewrite uint_codec by done.
Lemma pubkey_codec : codec e_pubkey d_pubkey_ (fun n => n < 2 ^ 256).
Proof. intros n r H. unfold e_pubkey, d_pubkey_. by rewrite uint_codec. Qed.
Lemma program_codec : codec e_program d_program (fun _ => True).
Proof. intros [] r _; unfold e_program, d_program, d_bind; by step_uint. Qed.
Lemma opt_codec_below {A} (e : A -> bytes) d (P : A -> Prop) o r : codec e d P -> (forall x, o = Some x -> P x) -> d_option d (e_option e o ++ r) = Some (o, r).
Proof. intros H Ho. apply (option_codec e d P H). destruct o; auto. Qed.
Lemma mint_codec : codec e_mint d_mint mint_fits.
Proof.
  intros m r (H1 & H2 & H3 & H4 & H5 & H6 & H7). unfold e_mint, d_mint, d_bind. rewrite <- !app_assoc.
  rewrite program_codec by done. rewrite pubkey_codec by done. step_uint. step_uint. step_uint. rewrite bool_codec by done.
  rewrite (opt_codec_below _ _ _ _ _ pubkey_codec H5), (opt_codec_below _ _ _ _ _ pubkey_codec H6), (opt_codec_below _ _ _ _ _ bytes_codec H7). by destruct m.
Qed.
Lemma multi_codec : codec e_multi d_multi multi_fits.
Proof.
  intros m r (H1 & H2 & H3 & H4 & H5 & H6). unfold e_multi, d_multi, d_bind. rewrite <- !app_assoc.
  rewrite program_codec by done. rewrite pubkey_codec by done. step_uint. step_uint. step_uint. rewrite bool_codec by done.
  rewrite (list_codec _ _ _ pubkey_codec).
  - by destruct m.
  - intros a. unfold e_pubkey. rewrite le_length. lia.
  - split; [by apply Forall_forall|done].
Qed.
Lemma index_mint_codec : codec (fun x => e_u32 x.1 ++ e_mint x.2) (i <~ d_u32;; m <~ d_mint;; d_ret (i, m)) (fun x => x.1 < 2 ^ 32 /\ mint_fits x.2).
Proof. intros [i m] r [H1 H2]. cbn [fst snd] in *. unfold d_bind. rewrite <- app_assoc. step_uint. by rewrite mint_codec. Qed.
Definition snap_fits (s : tsnap) : Prop :=
  (forall i m, (i, m) ∈ sn_mints s -> i < 2 ^ 32 /\ mint_fits m) /\ (forall m, m ∈ sn_multis s -> multi_fits m) /\ (forall b, b ∈ sn_tokens s -> lenN b < 2 ^ 64) /\
  lenN (sn_mints s) < 2 ^ 64 /\ lenN (sn_multis s) < 2 ^ 64 /\ lenN (sn_tokens s) < 2 ^ 64.
Lemma snap_codec : codec e_snap d_snap snap_fits.
Proof.
  intros s r (H1 & H2 & H3 & H4 & H5 & H6). unfold e_snap, d_snap, d_bind. rewrite <- !app_assoc.
  rewrite (list_codec _ _ _ index_mint_codec).
  - rewrite (list_codec _ _ _ multi_codec).
    + rewrite (list_codec _ _ _ bytes_codec); [by destruct s| |].
      * intros a. unfold e_bytes, e_u64. rewrite app_length, le_length. lia.
      * split; [by apply Forall_forall|done].
    + intros a. unfold e_multi, e_program, e_u32. rewrite app_length, le_length. lia.
    + split; [by apply Forall_forall|done].
  - intros a. unfold e_u32. rewrite app_length, le_length. lia.
  - split; [|done]. apply Forall_forall. intros [i m] Him. by apply H1.
Qed.

(** ** What a snapshot contains *)
#[local] Transparent to_bytes.
Lemma snap_keep_to p t : snap_keep p (to_bytes t) = Done (bool_decide (ta_program t = p) && negb (ta_deleted t)).
Proof.
  unfold snap_keep, to_bytes. cbn [lookup list_lookup unwrap mbind res_bind]. rewrite b2n_n2b, N.mod_small by apply flags_small. rewrite flag_program3.
  destruct (bool_decide _); [|done]. by destruct (ta_deleted t).
Qed.
#[local] Opaque to_bytes.
Definition kept (p : program) (t : token_account) : Prop := ta_program t = p /\ ta_deleted t = false.
#[local] Instance kept_dec p t : Decision (kept p t).
Proof. unfold kept. apply _. Defined.
Lemma snapshot_from_spec p l : tb_snapshot_from p (to_bytes <$> l) = Done (to_bytes <$> filter (kept p) l).
Proof.
  induction l as [|t l IH]; [done|]. rewrite fmap_cons. cbn [tb_snapshot_from]. rewrite snap_keep_to. cbn [mbind res_bind]. rewrite IH. cbn [mbind res_bind].
  destruct (decide (kept p t)) as [[H1 H2]|Hn].
  - rewrite filter_cons_True by done. rewrite H2. by rewrite bool_decide_true.
  - rewrite filter_cons_False by done. destruct (bool_decide_reflect (ta_program t = p)), (ta_deleted t) eqn:Hd; try done. by destruct Hn.
Qed.
Lemma table_list tb : tb_ok tb -> exists l, tb_accounts tb = to_bytes <$> l /\ Forall good l.
Proof.
  intros Hok. pose proof (to_all _ Hok) as Hall. generalize dependent (tb_accounts tb). intros accs Hall.
  induction accs as [|v accs IH]; [by exists []|]. destruct IH as (l & -> & Hl); [intros i w Hi; by apply (Hall (S i))|].
  destruct (Hall 0%nat v eq_refl) as (t & Hg & ->). exists (t :: l). split; [done|]. by constructor.
Qed.
Lemma snapshot_spec tb p : tb_ok tb -> exists l, tb_snapshot tb p = Done (to_bytes <$> l) /\
  (forall t, t ∈ l <-> exists i, stored tb i t /\ kept p t) /\
  ((forall i t, stored tb i t -> ta_deleted t = false -> at_pos tb (ta_pubkey t) i t) -> NoDup (ta_pubkey <$> l)) /\ (length l <= length (tb_accounts tb))%nat.
Proof.
  intros Hok. destruct (table_list tb Hok) as (l & Hl & Hg). exists (filter (kept p) l). unfold tb_snapshot. rewrite Hl. split; [apply snapshot_from_spec|]. split; [|split].
  3:{ rewrite fmap_length. apply filter_length. }
  - intros t. rewrite elem_of_list_filter. split.
    + intros [Hk Ht]. apply elem_of_list_lookup in Ht as [i Hi]. exists i. split; [|done]. split; [by eapply Forall_lookup_1|]. by rewrite Hl, list_lookup_fmap, Hi.
    + intros (i & [Hgt Hs] & Hk). split; [done|]. rewrite Hl, list_lookup_fmap in Hs. apply fmap_Some in Hs as (t' & Ht' & He).
      assert (t = t') as -> by (apply to_bytes_inj; [done|by eapply Forall_lookup_1|done]). by eapply elem_of_list_lookup_2.
  - intros Hlive. assert (forall i t, l !! i = Some t -> ta_deleted t = false -> at_pos tb (ta_pubkey t) i t) as Hat.
    { intros i t Hi Hd. apply Hlive; [|done]. split; [by eapply Forall_lookup_1|]. by rewrite Hl, list_lookup_fmap, Hi. }
    assert (forall i j t t', l !! i = Some t -> l !! j = Some t' -> kept p t -> kept p t' -> ta_pubkey t = ta_pubkey t' -> i = j) as Hinj.
    { intros i j t t' Hi Hj [_ Hd] [_ Hd'] He. pose proof (Hat _ _ Hi Hd) as A1. pose proof (Hat _ _ Hj Hd') as A2. rewrite He in A1.
      by destruct (at_pos_fun _ _ _ _ _ _ Hok A1 A2). }
    clear -Hinj. induction l as [|t l IH]; [constructor|]. assert (NoDup (ta_pubkey <$> filter (kept p) l)) as HN.
    { apply IH. intros i j t1 t2 H1 H2 K1 K2 He. assert (S i = S j) by (eapply (Hinj (S i) (S j)); eauto). lia. }
    destruct (decide (kept p t)) as [Hk|Hk]; [|by rewrite filter_cons_False]. rewrite filter_cons_True by done. rewrite fmap_cons. apply NoDup_cons. split; [|done].
    intros Hin. apply elem_of_list_fmap in Hin as (t' & He & Hin). apply elem_of_list_filter in Hin as [Hk' Hin]. apply elem_of_list_lookup in Hin as [j Hj].
    assert (0%nat = S j) by (eapply (Hinj 0%nat (S j)); eauto). lia.
Qed.

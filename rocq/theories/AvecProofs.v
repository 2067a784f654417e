(** Lemmas about storage files, names and archives. *)
From Verif Require Import Base DataModel BincodeModel TokenStoreModel AvecModel AvecSpec.

Definition fits (v : avec) : Prop := av_len v <= lenN (av_map v) /\ lenN (av_map v) < 2 ^ 63.
Definition align (n : N) : N := (n + 7) / 8 * 8.
Lemma align_ge n : n <= align n.
Proof. unfold align. pose proof (N.div_mod (n + 7) 8 ltac:(lia)). pose proof (N.mod_lt (n + 7) 8 ltac:(lia)). lia. Qed.
Lemma align_lt n : align n < n + 8.
Proof. unfold align. pose proof (N.div_mod (n + 7) 8 ltac:(lia)). lia. Qed.
Lemma align_mod n : align n mod 8 = 0.
Proof. unfold align. apply N.mod_mul. lia. Qed.
Lemma mod8 n : n mod 8 = 0 <-> exists k, n = 8 * k.
Proof.
  split.
  - intros H. exists (n / 8). pose proof (N.div_mod n 8 ltac:(lia)). lia.
  - intros [k ->]. rewrite N.mul_comm. apply N.mod_mul. lia.
Qed.
Lemma align_id n : n mod 8 = 0 -> align n = n.
Proof.
  intros [k ->]%mod8. unfold align. rewrite (N.mul_comm 8 k), N.div_add_l by lia. rewrite N.div_small by lia. lia.
Qed.
Lemma align_uniq n m : n <= m -> m < n + 8 -> m mod 8 = 0 -> m = align n.
Proof. intros H1 H2 [k ->]%mod8. pose proof (align_mod n) as [j Hj]%mod8. pose proof (align_ge n). pose proof (align_lt n). rewrite Hj in *. lia. Qed.

Definition slice (m : bytes) (off size : N) : bytes := take (N.to_nat size) (drop (N.to_nat off) m).
Lemma slice_len m off size : off + size <= lenN m -> lenN (slice m off size) = size.
Proof. unfold slice, lenN. intros H. rewrite take_length, drop_length. lia. Qed.
Lemma get_slice_eq v off size : fits v ->
  get_slice v off size = Done (if off + size <=? av_len v then Some (slice (av_map v) off size, align (off + size)) else None).
Proof.
  intros [Hl Hm]. unfold get_slice. destruct (N.leb_spec (off + size) (av_len v)).
  - replace (two64 <=? off + size) with false by (symmetry; apply N.leb_gt; unfold two64; lia).
    replace (av_len v <? off + size) with false by (symmetry; apply N.ltb_ge; lia). simpl. unfold index.
    replace (off + size <=? lenN (av_map v)) with true by (symmetry; apply N.leb_le; lia). simpl. unfold u64_align.
    by replace (off + size + 7 <? two64) with true by (symmetry; apply N.ltb_lt; unfold two64; lia).
  - replace (av_len v <? off + size) with true by (symmetry; apply N.ltb_lt; lia). by rewrite orb_true_r.
Qed.
Lemma slice_slice m off size o s : o + s <= size -> slice (slice m off size) o s = slice m (off + o) s.
Proof.
  intros H. unfold slice. rewrite skipn_firstn_comm, take_take, drop_drop. f_equal; [lia|]. f_equal. lia.
Qed.
Lemma drop_slice m off size o : o <= size -> drop (N.to_nat o) (slice m off size) = slice m (off + o) (size - o).
Proof. intros H. unfold slice. rewrite skipn_firstn_comm, drop_drop. f_equal; [lia|]. f_equal. lia. Qed.

(** The record at an offset. *)
Definition dlen_at (m : bytes) (off : N) : N := unle (slice m (off + 8) 8).
Definition rec_end (m : bytes) (off : N) : N := off + 136 + dlen_at m off.
Definition rec_at (m : bytes) (off : N) : stored :=
  Stored (unle (slice m off 8)) (dlen_at m off) (unle (slice m (off + 16) 32))
    (unle (slice m (off + 48) 8)) (unle (slice m (off + 56) 8)) (unle (slice m (off + 64) 32)) (nth 0 (slice m (off + 96) 1) "000"%byte)
    (slice m (off + 136) (dlen_at m off)) off (align (rec_end m off) - off) (slice m (off + 104) 32).
Lemma nth_slice m off size k : k < size -> nth (N.to_nat k) (slice m off size) "000"%byte = nth 0 (slice m (off + k) 1) "000"%byte.
Proof.
  intros H. rewrite <- (slice_slice m off size k 1) by lia. unfold slice at 2. change (N.to_nat 1) with 1%nat.
  generalize (slice m off size). intros l. revert l. induction (N.to_nat k) as [|j IH]; intros [|x l]; simpl; try done.
Qed.
Lemma get_account_eq v off : fits v -> off mod 8 = 0 ->
  get_account v off = Done (if rec_end (av_map v) off <=? av_len v then Some (rec_at (av_map v) off, align (rec_end (av_map v) off)) else None).
Proof.
  intros Hf Ho. set (m := av_map v). unfold get_account. rewrite get_slice_eq by done.
  assert (forall k, align (off + 8 * k) = off + 8 * k) as Hal.
  { intros k. apply align_id. apply mod8 in Ho as [j ->]. apply mod8. exists (j + k). lia. }
  unfold rec_end. destruct (N.leb_spec (off + 136 + dlen_at m off) (av_len v)) as [Hle|Hgt].
  - replace (off + 48 <=? av_len v) with true by (symmetry; apply N.leb_le; lia). simpl. rewrite get_slice_eq by done.
    pose proof (Hal 6) as H6. change (8 * 6) with 48 in H6. rewrite H6.
    replace (off + 48 + 56 <=? av_len v) with true by (symmetry; apply N.leb_le; lia). simpl. rewrite get_slice_eq by done.
    pose proof (Hal 13) as H13. change (8 * 13) with 104 in H13. replace (off + 48 + 56) with (off + 104) by lia. rewrite H13.
    replace (off + 104 + 32 <=? av_len v) with true by (symmetry; apply N.leb_le; lia). simpl. rewrite get_slice_eq by done.
    pose proof (Hal 17) as H17. change (8 * 17) with 136 in H17. replace (off + 104 + 32) with (off + 136) by lia. rewrite H17.
    fold m. assert (unle (take 8 (drop 8 (slice m off 48))) = dlen_at m off) as Hd.
    { unfold dlen_at. f_equal. rewrite <- (slice_slice m off 48 8 8) by lia. done. }
    rewrite Hd. replace (off + 136 + dlen_at m off <=? av_len v) with true by (symmetry; by apply N.leb_le). simpl.
    assert (nth 48 (slice m (off + 48) 56) "000"%byte = nth 0 (slice m (off + 96) 1) "000"%byte) as Hn.
    { replace (off + 96) with (off + 48 + 48) by lia. rewrite <- (nth_slice m (off + 48) 56 48) by lia. done. }
    rewrite Hn. unfold rec_at, rec_end. repeat f_equal.
    + rewrite <- (N.add_0_r off) at 2. rewrite <- (slice_slice m off 48 0 8) by lia. done.
    + change (drop 16) with (@drop byte (N.to_nat 16)). rewrite drop_slice by lia. done.
    + rewrite <- (N.add_0_r (off + 48)) at 2. rewrite <- (slice_slice m (off + 48) 56 0 8) by lia. done.
    + replace (off + 56) with (off + 48 + 8) by lia. rewrite <- (slice_slice m (off + 48) 56 8 8) by lia. done.
    + replace (off + 64) with (off + 48 + 16) by lia. rewrite <- (slice_slice m (off + 48) 56 16 32) by lia. done.
  - destruct (N.leb_spec (off + 48) (av_len v)) as [H1|H1]; simpl; [|done]. rewrite get_slice_eq by done.
    pose proof (Hal 6) as H6. change (8 * 6) with 48 in H6. rewrite H6.
    destruct (N.leb_spec (off + 48 + 56) (av_len v)) as [H2|H2]; simpl; [|done]. rewrite get_slice_eq by done.
    pose proof (Hal 13) as H13. change (8 * 13) with 104 in H13. replace (off + 48 + 56) with (off + 104) by lia. rewrite H13.
    destruct (N.leb_spec (off + 104 + 32) (av_len v)) as [H3|H3]; simpl; [|done]. rewrite get_slice_eq by done.
    pose proof (Hal 17) as H17. change (8 * 17) with 136 in H17. replace (off + 104 + 32) with (off + 136) by lia. rewrite H17.
    fold m. assert (unle (take 8 (drop 8 (slice m off 48))) = dlen_at m off) as Hd.
    { unfold dlen_at. f_equal. rewrite <- (slice_slice m off 48 8 8) by lia. done. }
    rewrite Hd. replace (off + 136 + dlen_at m off <=? av_len v) with false by (symmetry; by apply N.leb_gt). done.
Qed.

(** The offsets visited. *)
Inductive chain (m : bytes) (len : N) : N -> list N -> Prop :=
| ch_stop off : len < rec_end m off -> chain m len off []
| ch_next off l : rec_end m off <= len -> chain m len (align (rec_end m off)) l -> chain m len off (off :: l).
Lemma handles_chain v fuel off : fits v -> off mod 8 = 0 -> (0 < fuel)%nat -> av_len v < off + 136 * N.of_nat fuel ->
  exists l, av_handles fuel v off = Some (Done l) /\ chain (av_map v) (av_len v) off l.
Proof.
  intros Hf. revert off. induction fuel as [|k IH]; intros off Ho Hk Hl; [lia|]. simpl. rewrite get_account_eq by done.
  destruct (N.leb_spec (rec_end (av_map v) off) (av_len v)) as [He|He].
  - pose proof (align_ge (rec_end (av_map v) off)). assert (off + 136 <= rec_end (av_map v) off) by (unfold rec_end; lia).
    destruct (IH (align (rec_end (av_map v) off))) as (l & -> & Hc); [apply align_mod|destruct k; [lia|lia]|lia|].
    exists (off :: l). split; [done|]. by constructor.
  - exists []. split; [done|]. by constructor.
Qed.
Lemma chain_offs m len off l : chain m len off l -> off mod 8 = 0 ->
  Forall (fun o => o mod 8 = 0 /\ off <= o /\ rec_end m o <= len) l.
Proof.
  induction 1 as [|off l He Hc IH]; intros Ho; [constructor|]. constructor; [done|]. specialize (IH (align_mod _)).
  eapply Forall_impl; [exact IH|]. intros o (? & ? & ?). split; [done|]. split; [|done]. pose proof (align_ge (rec_end m off)). unfold rec_end in *. lia.
Qed.
Lemma accesses_eq v l : fits v -> Forall (fun o => o mod 8 = 0 /\ rec_end (av_map v) o <= av_len v) l ->
  accesses v l = Done (rec_at (av_map v) <$> l).
Proof.
  intros Hf. induction 1 as [|o l [Ho He] _ IH]; [done|]. simpl. unfold access. rewrite get_account_eq by done.
  apply N.leb_le in He. rewrite He. simpl. by rewrite IH.
Qed.
Lemma accounts_chain v fuel : fits v -> av_len v < 136 * N.of_nat fuel ->
  exists l, av_accounts fuel v = Some (Done (rec_at (av_map v) <$> l)) /\ chain (av_map v) (av_len v) 0 l.
Proof.
  intros Hf Hl. destruct (handles_chain v fuel 0 Hf) as (l & Hh & Hc); [done|destruct fuel; lia|lia|].
  exists l. split; [|done]. unfold av_accounts. rewrite Hh. simpl. f_equal. apply accesses_eq; [done|].
  eapply Forall_impl; [by apply (chain_offs _ _ _ _ Hc)|]. naive_solver.
Qed.
Lemma chain_fun m len off l l' : chain m len off l -> chain m len off l' -> l = l'.
Proof.
  intros H. revert l'. induction H as [off He|off l He Hc IH]; intros l' H'; inversion H'; subst; try lia; [done|]. f_equal. by apply IH.
Qed.

(** ** What the validator wrote *)
Lemma slice_app_l (p r : bytes) (off size : N) : off + size <= lenN p -> slice (p ++ r) off size = slice p off size.
Proof. unfold slice, lenN. intros H. rewrite drop_app_le by lia. rewrite take_app_le; [done|]. rewrite drop_length. lia. Qed.
Lemma slice_app_r (p r : bytes) (off size : N) : slice (p ++ r) (lenN p + off) size = slice r off size.
Proof. unfold slice, lenN. rewrite drop_app_ge by lia. do 2 f_equal. lia. Qed.
Lemma slice_all (p : bytes) : slice p 0 (lenN p) = p.
Proof. unfold slice, lenN. rewrite Nat2N.id. change (N.to_nat 0) with 0%nat. by rewrite drop_0, firstn_all. Qed.
Lemma slice_part (p q r : bytes) : slice (p ++ q ++ r) (lenN p) (lenN q) = q.
Proof. rewrite <- (N.add_0_r (lenN p)), slice_app_r, slice_app_l by lia. apply slice_all. Qed.
Lemma slice_part' (p q r : bytes) off size : off = lenN p -> size = lenN q -> slice (p ++ q ++ r) off size = q.
Proof. intros -> ->. apply slice_part. Qed.

Lemma encodes_rec a b pre suf : vacct_ok a -> encodes a b ->
  dlen_at (pre ++ b ++ suf) (lenN pre) = lenN (v_data a) /\ lenN b = 136 + lenN (v_data a) /\ reads_as (rec_at (pre ++ b ++ suf) (lenN pre)) a.
Proof.
  intros (H1 & H2 & H3 & H4 & H5 & H6 & H7) [pad Hp].
  clear b. set (b := le 8 (v_wv a) ++ _). set (f := pre ++ b ++ suf).
  set (l1 := le 8 (v_wv a)) in *. set (l2 := le 8 (lenN (v_data a))) in *. set (l3 := le 32 (v_pubkey a)) in *. set (l4 := le 8 (v_lamports a)) in *.
  set (l5 := le 8 (v_rent a)) in *. set (l6 := le 32 (v_owner a)) in *. set (l7 := [if v_exec a then "001"%byte else "000"%byte]) in *.
  assert (length l1 = 8 /\ length l2 = 8 /\ length l3 = 32 /\ length l4 = 8 /\ length l5 = 8 /\ length l6 = 32 /\ length l7 = 1)%nat as (L1 & L2 & L3 & L4 & L5 & L6 & L7).
  { unfold l1, l2, l3, l4, l5, l6, l7. rewrite !le_length. done. }
  assert (slice f (lenN pre) 8 = l1) as S1.
  { unfold f, b. rewrite <- !app_assoc. apply slice_part'; [done|unfold lenN; lia]. }
  assert (slice f (lenN pre + 8) 8 = l2) as S2.
  { unfold f, b. rewrite <- !app_assoc. rewrite (app_assoc pre). apply slice_part'; unfold lenN; rewrite ?app_length; lia. }
  assert (slice f (lenN pre + 16) 32 = l3) as S3.
  { unfold f, b. rewrite <- !app_assoc. rewrite (app_assoc pre), (app_assoc (pre ++ _)). apply slice_part'; unfold lenN; rewrite ?app_length; lia. }
  assert (slice f (lenN pre + 48) 8 = l4) as S4.
  { unfold f, b. rewrite <- !app_assoc. rewrite (app_assoc pre), (app_assoc (pre ++ _)), (app_assoc ((pre ++ _) ++ _)).
    apply slice_part'; unfold lenN; rewrite ?app_length; lia. }
  assert (slice f (lenN pre + 56) 8 = l5) as S5.
  { unfold f, b. rewrite <- !app_assoc. rewrite (app_assoc pre), (app_assoc (pre ++ _)), (app_assoc ((pre ++ _) ++ _)), (app_assoc (((pre ++ _) ++ _) ++ _)).
    apply slice_part'; unfold lenN; rewrite ?app_length; lia. }
  assert (slice f (lenN pre + 64) 32 = l6) as S6.
  { unfold f, b. rewrite <- !app_assoc. rewrite (app_assoc pre), (app_assoc (pre ++ _)), (app_assoc ((pre ++ _) ++ _)), (app_assoc (((pre ++ _) ++ _) ++ _)), (app_assoc ((((pre ++ _) ++ _) ++ _) ++ _)).
    apply slice_part'; unfold lenN; rewrite ?app_length; lia. }
  set (p6 := pre ++ l1 ++ l2 ++ l3 ++ l4 ++ l5 ++ l6).
  assert (lenN p6 = lenN pre + 96) as Hp6 by (unfold p6, lenN; rewrite !app_length; lia).
  assert (f = p6 ++ l7 ++ pad ++ v_hash a ++ v_data a ++ suf) as Hf6 by (unfold f, b, p6; by rewrite <- !app_assoc).
  assert (slice f (lenN pre + 96) 1 = l7) as S7.
  { rewrite Hf6. apply slice_part'; [lia|unfold lenN; lia]. }
  set (p7 := p6 ++ l7 ++ pad). assert (lenN p7 = lenN pre + 104) as Hp7 by (unfold p7; unfold lenN in *; rewrite !app_length; lia).
  assert (f = p7 ++ v_hash a ++ v_data a ++ suf) as Hf7 by (rewrite Hf6; unfold p7; by rewrite <- !app_assoc).
  assert (slice f (lenN pre + 104) 32 = v_hash a) as S8.
  { rewrite Hf7. apply slice_part'; [lia|unfold lenN; lia]. }
  set (p8 := p7 ++ v_hash a). assert (lenN p8 = lenN pre + 136) as Hp8 by (unfold p8; unfold lenN in *; rewrite !app_length; lia).
  assert (f = p8 ++ v_data a ++ suf) as Hf8 by (rewrite Hf7; unfold p8; by rewrite <- !app_assoc).
  assert (slice f (lenN pre + 136) (lenN (v_data a)) = v_data a) as S9.
  { rewrite Hf8. apply slice_part'; [lia|done]. }
  assert (dlen_at f (lenN pre) = lenN (v_data a)) as Hd.
  { unfold dlen_at. rewrite S2. apply unle_le_small. change (256 ^ N.of_nat 8) with (2 ^ 64). lia. }
  split; [done|]. split; [unfold b, lenN; rewrite !app_length, L1, L2, L3, L4, L5, L6, L7, Hp, H6; lia|].
  unfold rec_at, reads_as; simpl. rewrite Hd, S1, S3, S4, S5, S6, S7, S8, S9.
  repeat split.
  - apply unle_le_small. exact H1.
  - apply unle_le_small. exact H2.
  - apply unle_le_small. exact H3.
  - apply unle_le_small. exact H4.
  - apply unle_le_small. exact H5.
Qed.
Lemma written_chain l f : written l f -> Forall vacct_ok l -> forall pre suf, lenN pre mod 8 = 0 ->
  exists offs, chain (pre ++ f ++ suf) (lenN (pre ++ f)) (lenN pre) offs /\ Forall2 reads_as (rec_at (pre ++ f ++ suf) <$> offs) l.
Proof.
  induction 1 as [|a b Hb|a b pad l f Hb Hp Hm Hne Hw IH]; intros Hok pre suf Hpre.
  - exists []. split; [|constructor]. constructor. rewrite app_nil_r. unfold rec_end. lia.
  - apply Forall_inv in Hok. destruct (encodes_rec a b pre suf Hok Hb) as (Hd & Hl & Hr).
    exists [lenN pre]. split; [|constructor; [done|constructor]]. constructor.
    + unfold rec_end. rewrite Hd. unfold lenN in *. rewrite app_length. lia.
    + constructor. unfold rec_end at 2. rewrite Hd. pose proof (align_ge (lenN pre + 136 + lenN (v_data a))).
      unfold rec_end. unfold lenN in *. rewrite app_length. lia.
  - inversion Hok as [|? ? Hoa Hol]; subst. destruct (encodes_rec a b pre (pad ++ f ++ suf) Hoa Hb) as (Hd & Hl & Hr).
    destruct (IH Hol (pre ++ b ++ pad) suf) as (offs & Hc & Hf2).
    { apply mod8 in Hpre as [i Hi]. apply mod8 in Hm as [j Hj]. apply mod8. exists (i + j). unfold lenN in *. rewrite !app_length in *. lia. }
    assert (align (lenN pre + 136 + lenN (v_data a)) = lenN (pre ++ b ++ pad)) as Hal.
    { symmetry. apply align_uniq; [unfold lenN in *; rewrite !app_length; lia|unfold lenN in *; rewrite !app_length; lia|].
      apply mod8 in Hpre as [i Hi]. apply mod8 in Hm as [j Hj]. apply mod8. exists (i + j). unfold lenN in *. rewrite !app_length in *. lia. }
    replace (pre ++ (b ++ pad ++ f) ++ suf) with (pre ++ b ++ pad ++ f ++ suf) by (by rewrite <- !app_assoc).
    replace ((pre ++ b ++ pad) ++ f ++ suf) with (pre ++ b ++ pad ++ f ++ suf) in * by (by rewrite <- !app_assoc).
    replace ((pre ++ b ++ pad) ++ f) with (pre ++ b ++ pad ++ f) in * by (by rewrite <- !app_assoc).
    exists (lenN pre :: offs). split; [|by constructor]. constructor.
    + unfold rec_end. rewrite Hd. unfold lenN in *. rewrite !app_length. lia.
    + unfold rec_end. rewrite Hd, Hal. done.
Qed.

(** ** Truncated files: what lies in the delivered bytes is read as it is. *)
Lemma slice_take m k off size : off + size <= k -> slice (take (N.to_nat k) m) off size = slice m off size.
Proof. intros H. unfold slice. rewrite skipn_firstn_comm, take_take. f_equal. lia. Qed.
Lemma rec_at_agree m m' k off : (forall o s, o + s <= k -> slice m o s = slice m' o s) -> rec_end m off <= k -> off + 136 <= k ->
  rec_end m' off = rec_end m off /\ rec_at m' off = rec_at m off.
Proof.
  intros H He Hk. unfold rec_at, rec_end, dlen_at in *.
  rewrite <- (H (off + 8) 8) by lia. split; [done|].
  rewrite <- (H off 8), <- (H (off + 16) 32), <- (H (off + 48) 8), <- (H (off + 56) 8), <- (H (off + 64) 32), <- (H (off + 96) 1),
    <- (H (off + 104) 32), <- (H (off + 136)) by lia. done.
Qed.
Lemma chain_prefix m m' k len off l l' : (forall o s, o + s <= k -> slice m o s = slice m' o s) -> k <= len ->
  chain m k off l -> chain m' len off l' -> l `prefix_of` l' /\ rec_at m' <$> l = rec_at m <$> l.
Proof.
  intros Hag Hk Hc. revert l'. induction Hc as [off He|off l He Hc IH]; intros l' Hc'.
  - split; [apply prefix_nil|done].
  - destruct (rec_at_agree m m' k off Hag He) as [He' Hr]; [unfold rec_end in *; lia|].
    inversion Hc' as [? Hs|? l2 Hn Hc2]; subst; [lia|]. rewrite He' in Hc2. destruct (IH _ Hc2) as [Hp Hq].
    split; [by apply prefix_cons|]. rewrite !fmap_cons. by rewrite Hr, Hq.
Qed.

(** ** Names *)
Lemma digit_spec b d : digit b = Some d <-> d < 10 /\ b = n2b (48 + d).
Proof.
  unfold digit. pose proof (b2n_lt b). destruct (N.leb_spec 48 (b2n b)), (N.leb_spec (b2n b) 57); simpl; split; try done.
  - intros [= <-]. split; [lia|]. rewrite <- (n2b_b2n b) at 1. f_equal. lia.
  - intros [Hd ->]. f_equal. rewrite b2n_n2b, N.mod_small by lia. lia.
  - intros [Hd ->]. rewrite b2n_n2b, N.mod_small in * by lia. lia.
  - intros [Hd ->]. rewrite b2n_n2b, N.mod_small in * by lia. lia.
  - intros [Hd ->]. rewrite b2n_n2b, N.mod_small in * by lia. lia.
Qed.
Lemma digits_app acc s t : digits acc (s ++ t) = match digits acc s with Some x => digits x t | None => None end.
Proof. revert acc. induction s as [|b s IH]; intros acc; simpl; [done|]. destruct (digit b); [|done]. case_match; [apply IH|done]. Qed.
Lemma digits_decimal s n : decimal s n -> n < two64 -> digits 0 s = Some n.
Proof.
  induction 1 as [d Hd|s n d Hs IH Hd]; intros Hn.
  - simpl. replace (digit (n2b (48 + d))) with (Some d) by (symmetry; by apply digit_spec). replace (0 * 10 + d) with d by lia.
    apply N.ltb_lt in Hn. by rewrite Hn.
  - rewrite digits_app, IH by lia. simpl. replace (digit (n2b (48 + d))) with (Some d) by (symmetry; by apply digit_spec).
    replace (n * 10 + d) with (10 * n + d) by lia. apply N.ltb_lt in Hn. by rewrite Hn.
Qed.
Lemma decimal_digits s n : digits 0 s = Some n -> s <> [] -> decimal s n /\ n < two64.
Proof.
  revert n. induction s as [|b s IH] using rev_ind; intros n H Hne; [done|]. rewrite digits_app in H.
  destruct (digits 0 s) as [x|] eqn:Hx; [|done]. simpl in H. destruct (digit b) as [d|] eqn:Hd; [|done]. apply digit_spec in Hd as [Hd ->].
  destruct (N.ltb_spec (x * 10 + d) two64); [|done]. injection H as <-. split; [|done].
  destruct s as [|c s].
  - simpl in Hx. injection Hx as <-. replace (0 * 10 + d) with d by lia. by constructor.
  - destruct (IH x eq_refl) as [Hs _]; [done|]. replace (x * 10 + d) with (10 * x + d) by lia. by constructor.
Qed.
Lemma decimal_bytes s n : decimal s n -> s <> [] /\ Forall (fun b => 48 <= b2n b <= 57) s.
Proof.
  assert (forall d, d < 10 -> 48 <= b2n (n2b (48 + d)) <= 57) as Hb by (intros d Hd; rewrite b2n_n2b, N.mod_small by lia; lia).
  induction 1 as [d Hd|s n d Hs [Hne IH] Hd]; [split; [done|]; constructor; auto|].
  split; [by destruct s|]. apply Forall_app. split; [done|]. constructor; auto.
Qed.
Lemma u64_spec l n : u64_from_str l = Some n <-> n < two64 /\ (decimal l n \/ exists s, l = plus :: s /\ decimal s n).
Proof.
  destruct l as [|b l]; simpl.
  { split; [done|]. intros [_ [H|(s & ? & _)]]; [|done]. by apply decimal_bytes in H as [? _]. }
  assert (b2n plus = 43) as Hp by done. destruct (N.eqb_spec (b2n b) 43) as [Hb|Hb].
  - assert (b = plus) as -> by (apply b2n_inj; by rewrite Hp). split.
    + destruct l as [|c l]; [done|]. intros H. apply decimal_digits in H as [H ?]; [|done]. eauto.
    + intros [Hn [H|(s & [= ->] & H)]].
      * apply decimal_bytes in H as [_ H]. apply Forall_inv in H. rewrite Hp in H. lia.
      * pose proof (decimal_bytes _ _ H) as [Hne _]. destruct s as [|c s]; [done|]. by apply digits_decimal.
  - split.
    + intros H. apply (decimal_digits (b :: l)) in H as [H ?]; [|done]. eauto.
    + intros [Hn [H|(s & [= -> ->] & H)]]; [by apply (digits_decimal (b :: l))|done].
Qed.
Lemma split_dot_app s r : Forall (fun b => b2n b <> 46) s -> split_dot (s ++ dot :: r) = (s, Some r).
Proof.
  induction 1 as [|b s Hb _ IH]; [done|]. simpl. destruct (N.eqb_spec (b2n b) 46); [done|]. by rewrite IH.
Qed.
Lemma split_dot_inv l x y : split_dot l = (x, y) -> match y with Some r => l = x ++ dot :: r | None => l = x end.
Proof.
  revert x y. induction l as [|b l IH]; intros x y; simpl; [intros [= <- <-]; done|].
  destruct (N.eqb_spec (b2n b) 46) as [Hb|Hb].
  - intros [= <- <-]. simpl. f_equal. by apply b2n_inj.
  - destruct (split_dot l) as [x' y'] eqn:E. intros [= <- <-]. specialize (IH _ _ eq_refl). destruct y'; simpl; by f_equal.
Qed.
Lemma prints_exists n : exists s, prints s n.
Proof.
  induction (N.lt_wf_0 n) as [n _ IH]. destruct (decide (n < 10)) as [Hn|Hn].
  - exists [n2b (48 + n)]. split; [by constructor|]. simpl. intros [= H]. assert (n = 0) as ->; [|done].
    assert (b2n (n2b (48 + n)) = b2n (n2b 48)) as Hb by (by rewrite H). rewrite !b2n_n2b, !N.mod_small in Hb by lia. lia.
  - pose proof (N.div_mod n 10 ltac:(lia)) as Hdm. pose proof (N.mod_lt n 10 ltac:(lia)). destruct (IH (n / 10)) as (s & Hs & Hc); [lia|].
    exists (s ++ [n2b (48 + n mod 10)]). split; [rewrite Hdm at 2; by constructor|].
    pose proof (decimal_bytes _ _ Hs) as [Hne _]. destruct s as [|c s]; [done|]. simpl. intros Hh. destruct (Hc Hh) as [H0 _]. lia.
Qed.

(** Theorems about storage files, their names and archives (C56-C59, C65-C67). *)
From Verif Require Import Base DataModel BincodeModel FilterModel StoreModel TokenModel SplModel TokenUtilsModel TokenPendModel TokenStoreModel
  TokenUtilsProps TokenStoreProps AvecModel AvecSpec AvecProofs.

(** C56: a file written by the validator and taken from an archive (the tar entry may be longer than the recorded length) is read
    back exactly. *)
Theorem C56_from_archive : forall l f tail slot fuel, Forall vacct_ok l -> written l f -> lenN f < 2 ^ 63 -> lenN f < 136 * N.of_nat fuel ->
  exists v ss, new_from_reader (f ++ tail) (lenN f) slot = SOk v /\ av_slot v = slot /\
    av_accounts fuel v = Some (Done ss) /\ Forall2 reads_as ss l.
Proof.
  intros l f tail slot fuel Hok Hw Hl Hfu.
  assert (resize (N.to_nat (lenN f)) "000"%byte (f ++ tail) = f) as Hr.
  { unfold lenN. rewrite Nat2N.id. rewrite resize_le by (rewrite app_length; lia). by rewrite take_app. }
  exists (AVec f (lenN f) (lenN f) slot). assert (fits (AVec f (lenN f) (lenN f) slot)) as Hf by (split; simpl; [lia|done]).
  destruct (accounts_chain _ fuel Hf Hfu) as (offs & Ha & Hc). destruct (written_chain l f Hw Hok [] []) as (offs' & Hc' & Hf2); [done|].
  simpl in Hc, Hc', Hf2. rewrite app_nil_r in Hc', Hf2. rewrite (chain_fun _ _ _ _ _ Hc Hc') in Ha.
  eexists. split; [unfold new_from_reader; by rewrite Hr|]. split; [done|]. split; [exact Ha|done].
Qed.
Print Assumptions C56_from_archive.
(** The same for an unpacked file, which is usually longer than its recorded length. *)
Theorem C56_from_file : forall l f tail slot fuel, Forall vacct_ok l -> written l f -> 0 < lenN (f ++ tail) <= 2 ^ 34 -> lenN f < 136 * N.of_nat fuel ->
  exists v ss, new_from_file (f ++ tail) (lenN f) slot = SOk v /\ av_slot v = slot /\
    av_accounts fuel v = Some (Done ss) /\ Forall2 reads_as ss l.
Proof.
  intros l f tail slot fuel Hok Hw [Hl0 Hl] Hfu. set (v := AVec (f ++ tail) (lenN f) (lenN (f ++ tail)) slot). exists v.
  assert (lenN f <= lenN (f ++ tail)) as Hle by (unfold lenN; rewrite app_length; lia).
  assert (fits v) as Hf by (split; simpl; lia).
  destruct (accounts_chain v fuel Hf Hfu) as (offs & Ha & Hc). destruct (written_chain l f Hw Hok [] tail) as (offs' & Hc' & Hf2); [done|].
  simpl in Hc, Hc', Hf2. rewrite (chain_fun _ _ _ _ _ Hc Hc') in Ha.
  eexists. split; [|by eauto]. unfold new_from_file, sanitize.
  replace (lenN (f ++ tail) =? 0) with false by (symmetry; apply N.eqb_neq; lia).
  replace (max_file_size <? lenN (f ++ tail)) with false by (symmetry; apply N.ltb_ge; exact Hl).
  by replace (lenN (f ++ tail) <? lenN f) with false by (symmetry; by apply N.ltb_ge).
Qed.
Print Assumptions C56_from_file.

(** C57: whatever is in the file, iterating ends without a panic; the accounts lie inside the file, aligned, one after the
    other without overlap, and their fields are bytes of the file. *)
Theorem C57_any_bytes : forall v fuel, av_len v <= lenN (av_map v) -> lenN (av_map v) < 2 ^ 63 -> av_len v < 136 * N.of_nat fuel ->
  exists ss, av_accounts fuel v = Some (Done ss) /\
    (forall s, s ∈ ss -> st_off s mod 8 = 0 /\ st_off s + 136 + sm_dlen s <= av_len v /\
       sm_dlen s = unle (part (av_map v) (st_off s + 8) (st_off s + 16)) /\
       sm_pubkey s = unle (part (av_map v) (st_off s + 16) (st_off s + 48)) /\
       am_lamports s = unle (part (av_map v) (st_off s + 48) (st_off s + 56)) /\
       am_owner s = unle (part (av_map v) (st_off s + 64) (st_off s + 96)) /\
       st_data s = part (av_map v) (st_off s + 136) (st_off s + 136 + sm_dlen s) /\ lenN (st_data s) = sm_dlen s) /\
    (forall i s t, ss !! i = Some s -> ss !! S i = Some t -> st_off s + 136 + sm_dlen s <= st_off t).
Proof.
  intros v fuel H1 H2 H3. assert (fits v) as Hf by done. destruct (accounts_chain v fuel Hf H3) as (l & Ha & Hc).
  eexists. split; [exact Ha|]. pose proof (chain_offs _ _ _ _ Hc eq_refl) as Hall. rewrite Forall_forall in Hall. split.
  - intros s (o & -> & Ho)%elem_of_list_fmap. destruct (Hall o Ho) as (Hm & _ & He). simpl. unfold rec_end in He.
    split; [done|]. split; [done|]. unfold dlen_at, part, slice in *.
    split; [f_equal; f_equal; lia|]. split; [f_equal; f_equal; lia|]. split; [f_equal; f_equal; lia|]. split; [f_equal; f_equal; lia|].
    split; [f_equal; lia|]. unfold lenN in *. rewrite take_length, drop_length. lia.
  - assert (forall off l, chain (av_map v) (av_len v) off l -> forall o, o ∈ l -> off <= o) as Hmono.
    { clear. induction 1 as [|off l He Hc IH]; intros o Ho; [by apply elem_of_nil in Ho|]. apply elem_of_cons in Ho as [->|Ho]; [lia|].
      apply IH in Ho. pose proof (align_ge (rec_end (av_map v) off)). unfold rec_end in *. lia. }
    clear Hall Ha. induction Hc as [|off l He Hc IH]; intros i s t Hi Hj; [done|]. destruct i as [|i].
    + rewrite fmap_cons in Hi, Hj. simpl in Hi, Hj. injection Hi as <-. destruct l as [|o l]; [done|]. simpl in Hj. injection Hj as <-. simpl.
      pose proof (Hmono _ _ Hc o ltac:(left)). pose proof (align_ge (rec_end (av_map v) off)). unfold rec_end in *. lia.
    + by apply (IH i).
Qed.
Print Assumptions C57_any_bytes.
(** Lengths that do not fit the file are rejected; the archive reader always makes a map of the recorded length. *)
Theorem C57_lengths_checked : forall b len slot,
  (forall v, new_from_file b len slot = SOk v <-> v = AVec b len (lenN b) slot /\ 0 < lenN b <= 2 ^ 34 /\ len <= lenN b) /\
  (exists v, new_from_reader b len slot = SOk v /\ av_len v = len /\ lenN (av_map v) = len).
Proof.
  intros b len slot. split.
  - intros v. unfold new_from_file, sanitize, max_file_size. destruct (N.eqb_spec (lenN b) 0); [split; [done|lia]|].
    destruct (N.ltb_spec (16 * 1024 * 1024 * 1024) (lenN b)); [split; [done|lia]|].
    destruct (N.ltb_spec (lenN b) len); [split; [done|lia]|]. split; [intros [= <-]; split; [done|lia]|by intros [-> _]].
  - eexists. split; [done|]. split; [done|]. simpl. unfold lenN. rewrite resize_length. lia.
Qed.
Print Assumptions C57_lengths_checked.

(** C58, what holds: the accounts that lie completely in the delivered bytes are read correctly, first. *)
Theorem C58_delivered_part_partial : forall l f l1 f1 b slot fuel v, Forall vacct_ok l1 -> written l1 f1 ->
  l1 `prefix_of` l -> f1 `prefix_of` f -> f1 `prefix_of` b -> lenN f < 2 ^ 63 -> lenN f < 136 * N.of_nat fuel ->
  new_from_reader b (lenN f) slot = SOk v ->
  exists ss, av_accounts fuel v = Some (Done ss) /\ Forall2 reads_as (take (length l1) ss) (take (length l1) l).
Proof.
  intros l f l1 f1 b slot fuel v Hok Hw [l2 ->] [r ->] [b' ->] Hl Hfu [= <-]. set (f := f1 ++ r) in *. set (b := f1 ++ b') in *. set (v := AVec _ _ _ _).
  assert (fits v) as Hf by (split; simpl; unfold lenN in *; rewrite ?resize_length; lia).
  destruct (accounts_chain v fuel Hf Hfu) as (offs & Ha & Hc). destruct (written_chain l1 f1 Hw Hok [] r) as (offs' & Hc' & Hf2); [done|].
  simpl in Hc, Hc', Hf2. fold f in Hc', Hf2. exists (rec_at (av_map v) <$> offs). split; [exact Ha|]. simpl.
  assert (lenN f1 <= lenN f) as Hk by (unfold f, lenN; rewrite app_length; lia).
  destruct (chain_prefix f (av_map v) (lenN f1) (lenN f) 0 offs' offs) as [Hp Hq]; [|done|done|done|].
  { intros o s Hos. unfold v; simpl. unfold f. rewrite slice_app_l by done.
    assert (forall n, (length f1 <= n)%nat -> exists z, resize n "000"%byte b = f1 ++ z) as Hz.
    { intros n Hn. destruct (decide (n <= length b)%nat).
      - rewrite resize_le by done. unfold b. rewrite take_app_ge by done. eauto.
      - rewrite resize_ge by lia. unfold b. rewrite <- app_assoc. eauto. }
    destruct (Hz (N.to_nat (lenN (f1 ++ r)))) as [z ->]; [unfold lenN; rewrite app_length; lia|]. symmetry. by apply slice_app_l. }
  destruct Hp as [more ->]. pose proof (Forall2_length _ _ _ Hf2) as Hlen. rewrite fmap_length in Hlen.
  rewrite take_app. rewrite fmap_app, take_app_alt by (by rewrite fmap_length). simpl in Hq. rewrite Hq. done.
Qed.
Print Assumptions C58_delivered_part_partial.

(** ** Examples *)
Definition va (pk owner : N) (lam : N) (d : bytes) : vacct := VAcct 3 pk lam 18446744073709551615 owner false (replicate 32 "000"%byte) d.
Definition enc_of (a : vacct) : bytes :=
  le 8 (v_wv a) ++ le 8 (lenN (v_data a)) ++ le 32 (v_pubkey a) ++ le 8 (v_lamports a) ++ le 8 (v_rent a) ++ le 32 (v_owner a) ++
  [if v_exec a then "001"%byte else "000"%byte] ++ replicate 7 "000"%byte ++ v_hash a ++ v_data a.
Lemma enc_of_ok a : encodes a (enc_of a).
Proof. by apply enc. Qed.
Definition a1 : vacct := va 5 7 10 [n2b 1; n2b 2; n2b 3].
Definition a2 : vacct := va 6 7 20 (replicate 8 (n2b 9)).
Definition f12 : bytes := enc_of a1 ++ replicate 5 "000"%byte ++ enc_of a2.
Lemma f12_written : written [a1; a2] f12.
Proof. apply w_cons; [apply enc_of_ok|simpl; lia|by vm_compute|done|]. apply w_last, enc_of_ok. Qed.
Lemma a12_ok : Forall vacct_ok [a1; a2].
Proof. repeat constructor; by vm_compute. Qed.
Example C56_example_hyps : Forall vacct_ok [a1; a2] /\ written [a1; a2] f12 /\ lenN f12 < 2 ^ 63 /\ lenN f12 < 136 * N.of_nat 4 /\
  0 < lenN (f12 ++ replicate 100 "000"%byte) <= 2 ^ 34.
Proof. split; [apply a12_ok|]. split; [apply f12_written|]. split; [by vm_compute|]. split; [by vm_compute|]. split; [by vm_compute|]. vm_compute. done. Qed.
(** Random bytes are a legal input too; this one holds one account. *)
Definition junk : bytes := replicate 8 (n2b 255) ++ [n2b 4] ++ replicate 7 "000"%byte ++ replicate 150 (n2b 171).
Example C57_example_hyps : let v := AVec junk 160 (lenN junk) 1 in av_len v <= lenN (av_map v) /\ lenN (av_map v) < 2 ^ 63 /\ av_len v < 136 * N.of_nat 2 /\
  exists s, av_accounts 2 v = Some (Done [s]) /\ sm_dlen s = 4.
Proof. split; [by vm_compute|]. split; [by vm_compute|]. split; [by vm_compute|]. eexists. split; [vm_compute; reflexivity|done]. Qed.

(** A truncated entry: the missing bytes read as zeros.  The second account appears with another owner, another balance and
    other data, although the archive delivered none of this; and a third read sees nothing wrong. *)
Definition cut12 : bytes := take 200 f12.
Theorem C58_refuted : exists l f k v s a, Forall vacct_ok l /\ written l f /\ (k < length f)%nat /\
  new_from_reader (take k f) (lenN f) 9 = SOk v /\ av_accounts 4 v = Some (Done [rec_at f 0; s]) /\
  l !! 1%nat = Some a /\ sm_pubkey s = v_pubkey a /\ am_lamports s <> v_lamports a /\ am_owner s <> v_owner a /\ st_data s <> v_data a.
Proof.
  exists [a1; a2], f12, 192%nat. eexists _, _, a2. split; [apply a12_ok|]. split; [apply f12_written|]. split; [vm_compute; lia|]. split; [done|].
  split; [vm_compute; reflexivity|]. split; [done|]. split; [by vm_compute|]. split; [by vm_compute|]. split; by vm_compute.
Qed.
Print Assumptions C58_refuted.
(** Nothing delivered at all: phantom accounts with address 0. *)
Theorem C58_phantom_refuted : exists v ss, new_from_reader [] 272 9 = SOk v /\ av_accounts 3 v = Some (Done ss) /\ sm_pubkey <$> ss = [0; 0].
Proof. eexists _, _. split; [done|]. split; [vm_compute; reflexivity|done]. Qed.
Print Assumptions C58_phantom_refuted.
Example C58_example_hyps : let l := [a1; a2] in let b := take 200 f12 in
  Forall vacct_ok [a1] /\ written [a1] (enc_of a1) /\ [a1] `prefix_of` l /\ enc_of a1 `prefix_of` f12 /\ enc_of a1 `prefix_of` b /\ lenN b < lenN f12 /\
  exists v, new_from_reader b (lenN f12) 9 = SOk v.
Proof.
  intros l b. split; [constructor; [exact (proj1 (proj1 (Forall_cons _ _ _) a12_ok))|done]|]. split; [apply w_last, enc_of_ok|]. split; [by exists [a2]|].
  split; [unfold f12; by eexists|]. split; [exists (drop (length (enc_of a1)) b); by vm_compute|]. split; [by vm_compute|]. by eexists.
Qed.

(** C65: a flag byte other than 0 and 1 is not rejected (the code takes it as a [bool], which is undefined behaviour). *)
Theorem C65_refuted : exists v ss s, av_len v <= lenN (av_map v) /\ av_accounts 2 v = Some (Done ss) /\ s ∈ ss /\
  am_exec s <> "000"%byte /\ am_exec s <> "001"%byte.
Proof. eexists (AVec junk 160 (lenN junk) 1), _, _. split; [by vm_compute|]. split; [vm_compute; reflexivity|]. split; [left|]. split; by vm_compute. Qed.
Print Assumptions C65_refuted.
Theorem C65_written_files_partial : forall l f tail slot fuel v ss s, Forall vacct_ok l -> written l f -> lenN f < 2 ^ 63 -> lenN f < 136 * N.of_nat fuel ->
  new_from_reader (f ++ tail) (lenN f) slot = SOk v -> av_accounts fuel v = Some (Done ss) -> s ∈ ss -> am_exec s = "000"%byte \/ am_exec s = "001"%byte.
Proof.
  intros l f tail slot fuel v ss s Hok Hw Hl Hfu Hv Ha Hs. destruct (C56_from_archive l f tail slot fuel Hok Hw Hl Hfu) as (v' & ss' & Hv' & _ & Ha' & Hf).
  rewrite Hv in Hv'. injection Hv' as <-. rewrite Ha in Ha'. injection Ha' as <-. apply elem_of_list_lookup in Hs as [i Hi].
  destruct (Forall2_lookup_l _ _ _ _ _ Hf Hi) as (a & _ & _ & _ & _ & _ & _ & _ & He & _). rewrite He. destruct (v_exec a); auto.
Qed.
Print Assumptions C65_written_files_partial.
Example C65_example_hyps : exists v ss s, Forall vacct_ok [a1; a2] /\ written [a1; a2] f12 /\ new_from_reader (f12 ++ []) (lenN f12) 9 = SOk v /\ av_accounts 4 v = Some (Done ss) /\ s ∈ ss.
Proof.
  destruct (C56_from_archive [a1; a2] f12 [] 9 4 a12_ok f12_written) as (v & ss & Hv & _ & Ha & Hf); [by vm_compute|by vm_compute|].
  inversion Hf as [|s a ss' l' Hr Hr']; subst. eexists _, _, s. split; [apply a12_ok|]. split; [apply f12_written|]. split; [done|]. split; [done|left].
Qed.

(** C59: the name printed for a slot and an id is parsed to them, and every slot and id has a name. *)
Theorem C59_round_trip : forall n m, n < 2 ^ 64 -> m < 2 ^ 64 ->
  (exists s s', prints s n /\ prints s' m) /\
  (forall s s', prints s n -> prints s' m -> parse_name (s ++ dot :: s') = Some (n, m)).
Proof.
  intros n m Hn Hm. split.
  - destruct (prints_exists n) as [s Hs], (prints_exists m) as [s' Hs']. eauto.
  - intros s s' [Hs _] [Hs' _]. unfold parse_name. pose proof (decimal_bytes _ _ Hs) as [_ Hb]. rewrite split_dot_app.
    + simpl. rewrite (proj2 (u64_spec s n)) by auto. by rewrite (proj2 (u64_spec s' m)) by auto.
    + eapply Forall_impl; [exact Hb|]. simpl. intros; lia.
Qed.
Print Assumptions C59_round_trip.
(** Exactly these names are accepted: two digit strings, each perhaps with a plus sign, separated by one dot. *)
Theorem C59_accepted_names_partial : forall name n m, parse_name name = Some (n, m) <->
  n < 2 ^ 64 /\ m < 2 ^ 64 /\ exists x y, name = x ++ dot :: y /\
    (decimal x n \/ exists s, x = plus :: s /\ decimal s n) /\ (decimal y m \/ exists s, y = plus :: s /\ decimal s m).
Proof.
  intros name n m. unfold parse_name. split.
  - destruct (split_dot name) as [x y] eqn:E. apply split_dot_inv in E. destruct (u64_from_str x) as [n'|] eqn:Hx; [|done].
    destruct (u64_from_str (default [] y)) as [m'|] eqn:Hy; [|done]. intros [= -> ->]. apply u64_spec in Hx as [? ?], Hy as [Hm Hy].
    split; [done|]. split; [done|]. destruct y as [y|]; simpl in Hy; [|destruct Hy as [Hy|(s & ? & _)]; [by apply decimal_bytes in Hy as [? _]|done]]. eauto.
  - intros (Hn & Hm & x & y & -> & Hx & Hy). rewrite split_dot_app.
    + simpl. rewrite (proj2 (u64_spec x n)) by auto. by rewrite (proj2 (u64_spec y m)) by auto.
    + destruct Hx as [Hx|(s & -> & Hx)]; apply decimal_bytes in Hx as [_ Hb].
      * eapply Forall_impl; [exact Hb|]. simpl. intros; lia.
      * constructor; [done|]. eapply Forall_impl; [exact Hb|]. simpl. intros; lia.
Qed.
Print Assumptions C59_accepted_names_partial.
Definition str (l : list N) : bytes := map n2b l.
(** "+5.07" is accepted and means the same as "5.7". *)
Theorem C59_other_names_refuted : exists name name' s s', name <> name' /\ prints s 5 /\ prints s' 7 /\ name' = s ++ dot :: s' /\
  parse_name name = Some (5, 7) /\ parse_name name' = Some (5, 7).
Proof.
  exists (str [43; 53; 46; 48; 55]), (str [53; 46; 55]), (str [53]), (str [55]). split; [by vm_compute|].
  split; [split; [exact (dec_one 5 eq_refl)|by vm_compute]|]. split; [split; [exact (dec_one 7 eq_refl)|by vm_compute]|]. split; [done|]. split; by vm_compute.
Qed.
Print Assumptions C59_other_names_refuted.
Example C59_example_hyps : prints (str [49; 50]) 12 /\ prints (str [48]) 0 /\ parse_name (str [49; 50; 46; 48]) = Some (12, 0) /\ parse_name (str [49; 50; 46; 48; 46; 49]) = None.
Proof.
  split; [split; [exact (dec_snoc _ _ 2 (dec_one 1 eq_refl) eq_refl)|by vm_compute]|].
  split; [split; [exact (dec_one 0 eq_refl)|by vm_compute]|]. split; by vm_compute.
Qed.

(** C66: opening an archive whose manifest comes before its storage files, and iterating it. *)
Lemma listed_known ix slot id len : listed ix slot id len -> known_len ix slot id = Some len.
Proof.
  intros (l & Hl & Hin & Hnd). unfold known_len. rewrite Hl. simpl. clear Hl. induction l as [|[i n] l IH]; [by apply elem_of_nil in Hin|].
  simpl in *. apply NoDup_cons in Hnd as [Hni Hnd]. apply elem_of_cons in Hin as [[= -> ->]|Hin].
  - by rewrite decide_True.
  - rewrite decide_False; [|intros ->; apply Hni; by apply (elem_of_list_fmap_1 fst) in Hin]. specialize (IH Hin Hnd).
    destruct (list_find _ l) as [[j [i' n']]|]; simpl in *; [by injection IH as ->|done].
Qed.
Lemma manifest_is e : manifest_entry e -> is_manifest (en_path e) = true.
Proof.
  intros (s & n & -> & [Hs _] & Hn). cbn [is_manifest]. rewrite bool_decide_true by done. rewrite (proj2 (u64_spec s n)) by auto. by rewrite bool_decide_true.
Qed.
Lemma harmless_is e : harmless_entry e -> is_manifest (en_path e) = false /\ is_avec_file (en_path e) = false.
Proof.
  intros [H1 H2]. split.
  - destruct (en_path e) as [|[d|] [|[a|] [|[b|] [|]]]]; try done. simpl. case_bool_decide as Hd; [|done]. destruct (H1 a b). by subst.
  - destruct (en_path e) as [|[d|] [|[a|] [|]]]; try done. simpl. case_bool_decide as Hd; [|done]. destruct (H2 a). by subst.
Qed.
Theorem C66_listed_files : forall dec ix pre man files (meta : list (N * N * N)),
  Forall harmless_entry pre -> manifest_entry man -> dec (en_data man) = Some ix ->
  Forall2 (fun e m => file_entry e m.1.1 m.1.2 /\ listed ix m.1.1 m.1.2 m.2) files meta ->
  from_reader dec (map Some (pre ++ man :: files)) = SOk (ix, map Some files) /\
  exists vs, archive_vecs ix (map Some files) = SOk <$> vs /\
    Forall2 (fun v em => av_slot v = em.2.1.1 /\ av_len v = em.2.2 /\ av_map v = resize (N.to_nat em.2.2) "000"%byte (en_data em.1)) vs (zip files meta).
Proof.
  intros dec ix pre man files meta Hpre Hman%manifest_is Hdec Hf. split.
  - induction Hpre as [|e pre [H1 H2]%harmless_is _ IH]; simpl; [by rewrite Hman, Hdec|]. by rewrite H1, H2.
  - induction Hf as [|e [[slot id] len] files meta [(s & s' & Hp & Hs & Hs' & Hn & Hm) Hl] _ (vs & Hvs & IH)]; [exists []; split; [done|constructor]|]. simpl in *.
    eexists (_ :: vs). simpl. unfold archive_vecs in *. simpl. rewrite Hp. unfold file_name. simpl.
    rewrite (proj2 (C59_round_trip slot id Hn Hm) s s' Hs Hs'). unfold process_entry. rewrite (listed_known _ _ _ _ Hl). simpl.
    split; [by rewrite Hvs|]. constructor; [done|]. exact IH.
Qed.
Print Assumptions C66_listed_files.
(** Entries that cannot be read are reported, before the manifest and behind it. *)
Theorem C66_unreadable_entries : forall dec ix pre rest es n, Forall harmless_entry pre ->
  from_reader dec (map Some pre ++ None :: rest) = SErr EIo /\
  (es !! n = Some None -> SErr EIo ∈ archive_vecs ix es).
Proof.
  intros dec ix pre rest es n Hpre. split.
  - induction Hpre as [|e pre [H1 H2]%harmless_is _ IH]; simpl; [done|]. by rewrite H1, H2.
  - intros Hn. apply elem_of_list_omap. exists None. split; [by apply elem_of_list_lookup_2 in Hn|done].
Qed.
Print Assumptions C66_unreadable_entries.
(** A storage file that the manifest does not list is an error, and so is one that comes before the manifest. *)
Theorem C66_unlisted_files : forall dec ix e slot id, file_entry e slot id ->
  ((forall l len, ix !! slot = Some l -> (id, len) ∉ l) -> entry_vec ix (Some e) = Some (SErr EUnexpected)) /\
  (forall rest, from_reader dec (Some e :: rest) = SErr EUnexpected).
Proof.
  intros dec ix e slot id (s & s' & Hp & Hs & Hs' & Hn & Hm). split.
  - intros Hno. simpl. rewrite Hp. unfold file_name. simpl. rewrite (proj2 (C59_round_trip slot id Hn Hm) s s' Hs Hs').
    unfold process_entry, known_len. destruct (list_find _ _) as [[i [j len]]|] eqn:E; [|done]. apply list_find_Some in E as (Hi & Hj & _). simpl in Hj. subst j.
    destruct (ix !! slot) as [l|] eqn:El; [|done]. exfalso. simpl in Hi. apply (Hno l len eq_refl). by apply elem_of_list_lookup_2 in Hi.
  - intros rest. cbn [from_reader]. rewrite Hp. cbn [is_manifest is_avec_file]. rewrite bool_decide_true by done. by rewrite (proj2 (C59_round_trip slot id Hn Hm) s s' Hs Hs').
Qed.
Print Assumptions C66_unlisted_files.
Definition slot_dir (s : bytes) : list comp := [CNormal str_snapshots; CNormal s; CNormal s].
Definition acc_file (name : bytes) (b : bytes) : entry := Entry [CNormal str_accounts; CNormal name] b.
Definition ix1 : index_t := {[ 9 := [(1, 290); (2, lenN f12)] ]}.
Definition dec1 (_ : bytes) : option index_t := Some ix1.
Definition arch1 : list entry := [Entry [CNormal (str [118])] []; Entry (slot_dir (str [57])) []; acc_file (str [57; 46; 50]) f12].
Example C66_example_hyps : manifest_entry (Entry (slot_dir (str [57])) []) /\ harmless_entry (Entry [CNormal (str [118])] []) /\ file_entry (acc_file (str [57; 46; 50]) f12) 9 2 /\ listed ix1 9 2 (lenN f12) /\
  file_entry (acc_file (str [57; 46; 51]) []) 9 3 /\ known_len ix1 9 3 = None.
Proof.
  split; [exists (str [57]), 9; split; [done|]; split; [split; [exact (dec_one 9 eq_refl)|by vm_compute]|done]|]. split; [by split|].
  split; [exists (str [57]), (str [50])|split; [|split; [exists (str [57]), (str [51])|by vm_compute]]].
  - split; [done|]. split; [split; [exact (dec_one 9 eq_refl)|by vm_compute]|]. split; [split; [exact (dec_one 2 eq_refl)|by vm_compute]|]. done.
  - eexists. split; [by vm_compute|]. split; [right; left|]. apply (bool_decide_unpack _). by vm_compute.
  - split; [done|]. split; [split; [exact (dec_one 9 eq_refl)|by vm_compute]|]. split; [split; [exact (dec_one 3 eq_refl)|by vm_compute]|]. done.
Qed.
(** Not only storage files are taken for storage files: anything whose name looks like one, wherever it is. *)
Theorem C66_foreign_file_refuted : exists e, (forall slot id, ~ file_entry e slot id) /\ entry_vec ix1 (Some e) = Some (SErr EUnexpected).
Proof.
  exists (Entry [CNormal (str [120]); CNormal (str [49; 46; 50])] []). split; [|by vm_compute]. by intros slot id (s & s' & H & _).
Qed.
Print Assumptions C66_foreign_file_refuted.

(** C67: loading is the same as initialising the accounts of the token program one after the other, in the order of the archive,
    whatever slots the files belong to. *)
Lemma load_accounts_run E X : forall ss l ts, Forall2 reads_as ss l ->
  load_accounts E ts ss = ts_run E X ts (TInit ∘ as_acct <$> filter (fun a => v_owner a = spl_token_id) l).
Proof.
  intros ss l ts H. revert ts. induction H as [|s a ss l Hr _ IH]; intros ts; [done|]. cbn [load_accounts]. rewrite filter_cons.
  destruct Hr as (_ & _ & Hp & Hl & Hre & Ho & Hx & _ & Hd). rewrite Ho. destruct (N.eqb_spec (v_owner a) spl_token_id) as [He|He].
  - rewrite decide_True by done. rewrite fmap_cons. cbn [ts_run]. simpl. assert (load_acct s = as_acct a) as ->.
    { unfold load_acct, as_acct. rewrite Hp, Hl, Hre, Ho, Hx, Hd. f_equal. by destruct (v_exec a). }
    destruct (ts_init E ts (as_acct a)); [|done]. simpl. apply IH.
  - rewrite decide_False by done. apply IH.
Qed.
Lemma ts_run_app E X l1 l2 ts : ts_run E X ts (l1 ++ l2) = (ts' ← ts_run E X ts l1; ts_run E X ts' l2).
Proof. revert ts. induction l1 as [|o l1 IH]; intros ts; simpl; [done|]. destruct (ts_step E X ts o) as [ts1|]; simpl; [apply IH|done]. Qed.
(** The files of an archive, with the accounts the validator wrote to each. *)
Definition archived (ix : index_t) (fuel : nat) (e : entry) (l : list vacct) : Prop :=
  exists slot id f tail, file_entry e slot id /\ listed ix slot id (lenN f) /\ Forall vacct_ok l /\ written l f /\ en_data e = f ++ tail /\
    lenN f < 2 ^ 63 /\ lenN f < 136 * N.of_nat fuel.
Theorem C67_load_order_partial : forall fuel E X dec ix pre man files ls ts, Forall harmless_entry pre -> manifest_entry man -> dec (en_data man) = Some ix ->
  Forall2 (archived ix fuel) files ls ->
  load_archive fuel E dec ts (map Some (pre ++ man :: files)) =
    Some (ts_run E X ts (TInit ∘ as_acct <$> filter (fun a => v_owner a = spl_token_id) (concat ls))).
Proof.
  intros fuel E X dec ix pre man files ls ts Hpre Hman Hdec Hf. unfold load_archive.
  assert (from_reader dec (map Some (pre ++ man :: files)) = SOk (ix, map Some files)) as ->.
  { apply manifest_is in Hman. clear Hf. induction Hpre as [|e pre [H1 H2]%harmless_is _ IH]; simpl; [by rewrite Hman, Hdec|]. by rewrite H1, H2. }
  revert ts. induction Hf as [|e l files ls Ha _ IH]; intros ts; [done|].
  destruct Ha as (slot & id & f & tail & (s & s' & Hp & Hs & Hs' & Hn & Hm) & Hl & Hok & Hw & Hd & Hb & Hfu).
  simpl. unfold archive_vecs in *. simpl. rewrite Hp. unfold file_name. simpl.
  rewrite (proj2 (C59_round_trip slot id Hn Hm) s s' Hs Hs'). unfold process_entry. rewrite (listed_known _ _ _ _ Hl). rewrite Hd.
  destruct (C56_from_archive l f tail slot fuel Hok Hw Hb Hfu) as (v & ss & Hv & _ & Hss & Hr). rewrite Hv. simpl. rewrite Hss.
  rewrite (load_accounts_run E X _ _ _ Hr). rewrite filter_app, fmap_app, ts_run_app. destruct (ts_run E X ts _) as [ts1|]; simpl; [apply IH|done].
Qed.
Print Assumptions C67_load_order_partial.
(** The loader ends well only if every entry could be read, there is a manifest, in its place and ahead of the files, and it lists every file. *)
Lemma load_vecs_all fuel E l : forall ts ts', load_vecs fuel E ts l = Some (Done ts') -> forall e, SErr e ∉ l.
Proof.
  induction l as [|x l IH]; intros ts ts' H e; [apply not_elem_of_nil|]. simpl in H. destruct x as [v|e']; [|done].
  destruct (av_accounts fuel v) as [[ss|]|]; [|done..]. destruct (load_accounts E ts ss) as [ts1|]; [|done]. rewrite not_elem_of_cons. split; [done|]. by eapply IH.
Qed.
Theorem C67_all_or_nothing : forall fuel E dec ts ts' es, load_archive fuel E dec ts es = Some (Done ts') ->
  exists ix pre man files s, es = map Some (pre ++ man :: files) /\ en_path man = [CNormal dir_snapshots; CNormal s; CNormal s] /\ dec (en_data man) = Some ix /\
    (forall e slot id, e ∈ pre -> ~ file_entry e slot id) /\
    (forall e slot id, e ∈ files -> file_entry e slot id -> exists l len, ix !! slot = Some l /\ (id, len) ∈ l).
Proof.
  intros fuel E dec ts ts' es H. unfold load_archive in H. destruct (from_reader dec es) as [[ix es']|] eqn:Hr; [|done]. pose proof (load_vecs_all _ _ _ _ _ H) as Hno. clear H.
  assert (exists files, es' = map Some files) as [files ->].
  { clear Hr. induction es' as [|[e|] es' IH]; [by exists []| |].
    - destruct IH as [files ->]; [|by exists (e :: files)]. intros e' He'. apply (Hno e'). unfold archive_vecs in *. simpl. destruct (match file_name _ with None => _ | Some _ => _ end); [by right|done].
    - destruct (Hno EIo). unfold archive_vecs. simpl. left. }
  assert (exists pre man s, es = map Some (pre ++ man :: files) /\ en_path man = [CNormal dir_snapshots; CNormal s; CNormal s] /\ dec (en_data man) = Some ix /\ (forall e slot id, e ∈ pre -> ~ file_entry e slot id)) as (pre & man & s & H1 & H2 & H3 & H4).
  { clear Hno. induction es as [|[e|] es IH]; [done| |done]. pose proof (C66_unlisted_files dec ix e) as Hu. simpl in Hr. destruct (is_manifest (en_path e)) eqn:Hm.
    - destruct (dec (en_data e)) as [ix'|] eqn:Hd; [|done]. injection Hr as -> ->. unfold is_manifest in Hm. destruct (en_path e) as [|[d|] [|[a|] [|[b|] [|]]]] eqn:Hp; try done.
      exists [], e, a. apply andb_true_iff in Hm as [Hm1 Hm2]. apply bool_decide_eq_true in Hm1. destruct (u64_from_str a); [|done]. apply bool_decide_eq_true in Hm2. subst. split; [done|]. split; [done|]. split; [done|].
      intros x ? ? Hx. by apply elem_of_nil in Hx.
    - destruct (is_avec_file (en_path e)) eqn:Ha; [done|]. destruct (IH Hr) as (pre & man & s & -> & H2 & H3 & H4). exists (e :: pre), man, s. split; [done|]. split; [done|]. split; [done|].
      intros x slot id [->|Hx]%elem_of_cons; [|by apply H4]. intros Hf. pose proof (proj2 (Hu slot id Hf) []) as Hc. cbn [from_reader] in Hc. by rewrite Hm, Ha in Hc. }
  exists ix, pre, man, files, s. do 4 (split; [done|]). intros e slot id He Hf. destruct (ix !! slot) as [l|] eqn:Hl.
  - destruct (decide (Exists (fun y => y.1 = id) l)) as [Hex|Hex].
    + apply Exists_exists in Hex as ([i len] & Hin & Hid). simpl in Hid. subst i. by exists l, len.
    + exfalso. apply (Hno EUnexpected). apply elem_of_list_omap. exists (Some e). split; [by apply elem_of_list_fmap_1|]. apply (proj1 (C66_unlisted_files dec ix e slot id Hf)).
      intros l' len Hl' Hin. rewrite Hl in Hl'. injection Hl' as <-. apply Hex. apply Exists_exists. by exists (id, len).
  - exfalso. apply (Hno EUnexpected). apply elem_of_list_omap. exists (Some e). split; [by apply elem_of_list_fmap_1|]. apply (proj1 (C66_unlisted_files dec ix e slot id Hf)).
    intros l' len Hl'. congruence.
Qed.
Print Assumptions C67_all_or_nothing.
Definition va_of (a : acct) : vacct :=
  VAcct 3 (d_pubkey a) (d_lamports a) (a_rent_epoch (d_account a)) (d_owner a) false (replicate 32 "000"%byte) (match d_data a with DRaw b => b | _ => [] end).
Definition mint1 : vacct := va_of (mintd 1001 50 0 0).
Definition tok_at (amount : N) : vacct := va_of (tokd 77 1001 1002 amount 0 0).
(** Two storage files hold the account: slot 20 with 9 tokens, slot 10 with 5 tokens. *)
Definition f_new : bytes := enc_of mint1 ++ replicate 6 "000"%byte ++ enc_of (tok_at 9).
Definition f_old : bytes := enc_of (tok_at 5).
Definition two_vecs : list avec := [AVec f_new (lenN f_new) (lenN f_new) 20; AVec f_old (lenN f_old) (lenN f_old) 10].
Definition loaded (vs : list avec) : tstore := match load_vecs 10 E0 ts_empty (SOk <$> vs) with Some (Done ts) => ts | _ => ts_empty end.
Definition amount_of (r : res (result (option acct))) : option N :=
  match r with Done (ROk (Some a)) => match d_data a with DRaw b => Some (unle (take 8 (drop 64 b))) | _ => None end | _ => None end.
Theorem C67_refuted : exists vs f f' v v', vs = [v; v'] /\ av_map v = f /\ av_map v' = f' /\ written [mint1; tok_at 9] f /\ written [tok_at 5] f' /\
  av_slot v' < av_slot v /\ load_vecs 10 E0 ts_empty (SOk <$> vs) = Some (Done (loaded vs)) /\ amount_of (ts_get (loaded vs) 77 Finalized) = Some 5.
Proof.
  exists two_vecs, f_new, f_old. eexists _, _. split; [done|]. split; [done|]. split; [done|].
  split; [apply w_cons; [apply enc_of_ok|simpl; lia|by vm_compute|done|apply w_last, enc_of_ok]|]. split; [apply w_last, enc_of_ok|]. split; [done|].
  split; [|by vm_compute]. assert (match load_vecs 10 E0 ts_empty (SOk <$> two_vecs) with Some (Done _) => true | _ => false end = true) as H by (by vm_compute).
  unfold loaded. destruct (load_vecs 10 E0 ts_empty (SOk <$> two_vecs)) as [[?|]|]; done.
Qed.
Print Assumptions C67_refuted.
(** The snapshot is loaded while the update stream is already running: the loaded version, whatever its age, replaces the
    finalized state of slot 30. *)
Theorem C67_stream_refuted : exists l ts', ts_run E0 X0 ts_empty l = Done (final l) /\ TUpdate (tokd 77 1001 1002 9 30 4) Finalized ∈ l /\
  amount_of (ts_get (final l) 77 Finalized) = Some 9 /\
  load_accounts E0 (final l) [rec_at f_old 0] = Done ts' /\ amount_of (ts_get ts' 77 Finalized) = Some 5.
Proof.
  exists [TInit (mintd 1001 50 1 1); TUpdate (tokd 77 1001 1002 9 30 4) Finalized].
  exists (match load_accounts E0 (final [TInit (mintd 1001 50 1 1); TUpdate (tokd 77 1001 1002 9 30 4) Finalized]) [rec_at f_old 0] with Done t => t | Panic => ts_empty end).
  split; [apply final_run; by vm_compute|]. split; [set_solver|]. split; [by vm_compute|]. split; [|by vm_compute].
  assert (match load_accounts E0 (final [TInit (mintd 1001 50 1 1); TUpdate (tokd 77 1001 1002 9 30 4) Finalized]) [rec_at f_old 0] with Done t => true | Panic => false end = true) as H by (by vm_compute).
  destruct (load_accounts _ _ _); done.
Qed.
Print Assumptions C67_stream_refuted.
Definition ix2 : index_t := {[ 20 := [(1, lenN f_new)]; 10 := [(4, lenN f_old)] ]}.
Definition arch2 : list entry := [acc_file (str [50; 48; 46; 49]) (f_new ++ replicate 50 "000"%byte); acc_file (str [49; 48; 46; 52]) f_old].
Example C67_example_hyps : Forall harmless_entry [Entry [CNormal (str [118])] []] /\ manifest_entry (Entry (slot_dir (str [57])) []) /\
  Forall2 (archived ix2 10) arch2 [[mint1; tok_at 9]; [tok_at 5]] /\
  (ts_run E0 X0 ts_empty (TInit ∘ as_acct <$> filter (fun a => v_owner a = spl_token_id) (concat [[mint1; tok_at 9]; [tok_at 5]])) <> Panic).
Proof.
  split; [constructor; [by split|constructor]|]. split; [exists (str [57]), 9; split; [done|]; split; [split; [exact (dec_one 9 eq_refl)|by vm_compute]|done]|].
  split.
  - constructor; [|constructor; [|constructor]].
    + exists 20, 1, f_new, (replicate 50 "000"%byte). split; [exists (str [50; 48]), (str [49]); split; [done|]|].
      { split; [split; [exact (dec_snoc _ _ 0 (dec_one 2 eq_refl) eq_refl)|by vm_compute]|]. split; [split; [exact (dec_one 1 eq_refl)|by vm_compute]|]. done. }
      split; [exists [(1, lenN f_new)]; split; [by vm_compute|]; split; [left|apply (bool_decide_unpack _); by vm_compute]|].
      split; [repeat constructor; by vm_compute|]. split; [apply w_cons; [apply enc_of_ok|simpl; lia|by vm_compute|done|apply w_last, enc_of_ok]|].
      split; [done|]. split; by vm_compute.
    + exists 10, 4, f_old, []. split; [exists (str [49; 48]), (str [52]); split; [done|]|].
      { split; [split; [exact (dec_snoc _ _ 0 (dec_one 1 eq_refl) eq_refl)|by vm_compute]|]. split; [split; [exact (dec_one 4 eq_refl)|by vm_compute]|]. done. }
      split; [exists [(4, lenN f_old)]; split; [by vm_compute|]; split; [left|apply (bool_decide_unpack _); by vm_compute]|].
      split; [repeat constructor; by vm_compute|]. split; [apply w_last, enc_of_ok|].
      split; [by rewrite app_nil_r|]. split; by vm_compute.
  - assert (match ts_run E0 X0 ts_empty (TInit ∘ as_acct <$> filter (fun a => v_owner a = spl_token_id) (concat [[mint1; tok_at 9]; [tok_at 5]])) with Done _ => true | Panic => false end = true) as H by (by vm_compute).
    intros He. by rewrite He in H.
Qed.
(** The archive is loaded; with an entry that cannot be read, or with a file that is not listed, the program ends. *)
Example C67_all_or_nothing_example : let es := Some <$> (Entry [CNormal (str [118])] [] :: Entry (slot_dir (str [57])) [] :: arch2) in
  (exists ts, load_archive 10 E0 (fun _ => Some ix2) ts_empty es = Some (Done ts)) /\
  load_archive 10 E0 (fun _ => Some ix2) ts_empty (es ++ [None]) = Some Panic /\ load_archive 10 E0 (fun _ => Some ix2) ts_empty (es ++ [Some (acc_file (str [57; 46; 51]) [])]) = Some Panic.
Proof.
  intros es. split; [|split; vm_compute; reflexivity].
  assert (match load_archive 10 E0 (fun _ => Some ix2) ts_empty es with Some (Done _) => true | _ => false end = true) as H by (vm_compute; reflexivity).
  destruct (load_archive 10 E0 (fun _ => Some ix2) ts_empty es) as [[ts|]|]; [by exists ts|discriminate H..].
Qed.

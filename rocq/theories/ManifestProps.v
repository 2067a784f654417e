(** Theorems about manifests (C76) and archives with a manifest as the validator writes it. *)
From Verif Require Import Base DataModel BincodeModel BincodeProofs AvecModel AvecSpec AvecProofs AvecProps ManifestModel ManifestSpec.
#[local] Arguments le : simpl never.
#[local] Arguments d_uint : simpl never.

Definition e_entry (f : N * N) : bytes := le 8 f.1 ++ le 8 f.2.
Definition e_slot_files (e : N * list (N * N)) : bytes := le 8 e.1 ++ e_list e_entry e.2.
Definition entry_ok (f : N * N) : Prop := f.1 < 2 ^ 64 /\ f.2 < 2 ^ 64.
Definition slot_ok (e : N * list (N * N)) : Prop := e.1 < 2 ^ 64 /\ Forall entry_ok e.2 /\ lenN e.2 < 2 ^ 64.
Lemma entry_codec : codec e_entry d_entry entry_ok.
Proof.
  intros [i n] r [H1 H2]. unfold e_entry, d_entry, d_bind. cbn [fst snd] in *. rewrite <- app_assoc. unfold d_u64.
  rewrite uint_codec by done. by rewrite uint_codec.
Qed.
Lemma entry_mono : dmono d_entry.
Proof. repeat first [apply ret_mono | apply uint_mono | apply bind_mono; [|intros]]. Qed.
Lemma slot_files_codec : codec e_slot_files d_slot_files slot_ok.
Proof.
  intros [s l] r (H1 & H2 & H3). unfold e_slot_files, d_slot_files, d_bind. cbn [fst snd] in *. rewrite <- app_assoc.
  unfold d_u64 at 1. rewrite uint_codec by done. rewrite (list_codec e_entry d_entry entry_ok entry_codec); [done| |done].
  intros a. unfold e_entry. rewrite app_length, le_length. lia.
Qed.
Lemma slot_files_mono : dmono d_slot_files.
Proof. repeat first [apply ret_mono | apply uint_mono | apply list_mono, entry_mono | apply bind_mono; [|intros]]. Qed.
(** The needed part as one decoder. *)
Definition d_need : dec (list (N * list (N * N)) * N * N * bytes) :=
  m <~ d_list d_slot_files;; w <~ d_u64;; s <~ d_u64;; h <~ d_take hash_info_len;; d_ret (m, w, s, h).
Lemma need_mono : dmono d_need.
Proof. repeat first [apply ret_mono | apply uint_mono | apply take_mono | apply list_mono, slot_files_mono | apply bind_mono; [|intros]]. Qed.
Lemma fields_need b : d_fields b = match d_need b with
  | Some (m, w, s, h, r) => (r0 <~ d_default [] (d_list d_u64);; rh <~ d_default [] (d_list (s <~ d_u64;; h <~ d_take 32;; d_ret (s, h)));;
                             d_ret (DbFields (to_index m) w s h r0 rh)) r
  | None => None end.
Proof.
  unfold d_fields, d_need, d_bind. destruct (d_list d_slot_files b) as [[m r]|]; [|done].
  destruct (d_u64 r) as [[w r1]|]; [|done]. destruct (d_u64 r1) as [[s r2]|]; [|done].
  by destruct (d_take hash_info_len r2) as [[h r3]|].
Qed.
Lemma default_total {A} (a : A) d b : exists x r, d_default a d b = Some (x, r).
Proof. unfold d_default. destruct (d b) as [[x r]|]; eauto. Qed.
Lemma fields_index b : df_files ∘ fst <$> d_fields b = to_index ∘ fst ∘ fst ∘ fst ∘ fst <$> d_need b.
Proof.
  rewrite fields_need. destruct (d_need b) as [[[[[m w] s] h] r]|]; [|done]. simpl. unfold d_bind.
  destruct (default_total [] (d_list d_u64) r) as (x & r1 & ->).
  by destruct (default_total [] (d_list (fun b => match d_u64 b with Some (a, r) => match d_take 32 r with Some (a0, r0) => d_ret (a, a0) r0 | None => None end | None => None end)) r1) as (y & r2 & ->).
Qed.
Lemma seq_eq {A} (e : A -> bytes) (l : list A) : seq_of (e <$> l) = e_list e l.
Proof. unfold seq_of, e_list, e_u64, lenN. by rewrite fmap_length. Qed.
Lemma files_eq e : files_of e = e_slot_files e.
Proof. destruct e as [s l]. unfold files_of, e_slot_files. cbn [fst snd]. f_equal. exact (seq_eq e_entry l). Qed.
Lemma index_part_need l wv slot info r : files_ok l -> wv < 2 ^ 64 -> slot < 2 ^ 64 -> length info = 104%nat ->
  d_need (index_part l wv slot info ++ r) = Some (l, wv, slot, info, r).
Proof.
  intros (_ & Hn & Hf) Hw Hs Hi. unfold index_part.
  assert (seq_of (files_of <$> l) = e_list e_slot_files l) as ->.
  { rewrite <- seq_eq. f_equal. apply list_fmap_ext. intros _ e _. apply files_eq. }
  unfold d_need. unfold d_bind at 1. rewrite <- !app_assoc.
  rewrite (list_codec e_slot_files d_slot_files slot_ok slot_files_codec).
  - unfold d_bind, d_u64. rewrite uint_codec by done. rewrite uint_codec by done. by rewrite take_codec.
  - intros [s fs]. unfold e_slot_files. rewrite app_length, le_length. lia.
  - split; [|done]. eapply Forall_impl; [exact Hf|]. intros e (H1 & H2 & H3). by split.
Qed.
Lemma to_index_says l : NoDup l.*1 -> says (to_index l) l.
Proof.
  unfold to_index. induction l as [|[s fs] l IH] using rev_ind; intros Hnd slot fs'.
  - cbn [foldl]. rewrite elem_of_nil. split; [|done]. intros H. exfalso. revert H. apply (@lookup_empty_Some N (gmap N) _ _ _ _ _ _ _ _ _).
  - rewrite foldl_app. simpl. rewrite fmap_app, NoDup_app in Hnd. destruct Hnd as (Hnd & Hdis & _). rewrite elem_of_app, elem_of_list_singleton.
    unfold says, index_t in *. rewrite lookup_insert_Some, (IH Hnd slot fs'). split.
    + intros [[<- <-]|[_ H]]; auto.
    + intros [H|[= -> ->]]; [|by left]. right. split; [|done]. intros <-. apply (Hdis s); [by apply (elem_of_list_fmap_1 fst) in H|set_solver].
Qed.
Lemma codec_strict {A} (d : dec A) (b : bytes) a : dmono d -> d b = Some (a, []) -> forall k, (k < length b)%nat -> d (take k b) = None.
Proof.
  intros Hm Hd k Hk. destruct (d (take k b)) as [[a' r]|] eqn:E; [|done]. apply (Hm _ _ _ (drop k b)) in E. rewrite take_drop, Hd in E.
  injection E as _ E. symmetry in E. apply app_nil in E as [_ E]. apply (f_equal length) in E. rewrite drop_length in E. simpl in E. lia.
Qed.

(** The hash information of a bank has 104 bytes: two hashes and five counters.
    C76: whatever the order in which the slots are written and whatever follows, the manifest is read as the index it contains ... *)
Theorem C76_manifest_round_trip : forall bank h l wv slot info tail,
  bank_reads bank h -> files_ok l -> wv < 2 ^ 64 -> slot < 2 ^ 64 -> length info = 104%nat ->
  exists ix, dec_manifest bank (h ++ index_part l wv slot info ++ tail) = Some ix /\ says ix l.
Proof.
  intros bank h l wv slot info tail [Hb _] Hl Hw Hs Hi. exists (to_index l). split; [|by apply to_index_says, Hl].
  unfold dec_manifest. rewrite Hb. pose proof (fields_index (index_part l wv slot info ++ tail)) as H.
  rewrite index_part_need in H by done. destruct (d_fields _) as [[f r]|]; simpl in H; [|done]. by injection H as ->.
Qed.
Print Assumptions C76_manifest_round_trip.
(** ... and one that ends before the index is complete is an error. *)
Theorem C76_truncated_manifest : forall bank h l wv slot info tail k,
  bank_reads bank h -> files_ok l -> wv < 2 ^ 64 -> slot < 2 ^ 64 -> length info = 104%nat ->
  (k < length (h ++ index_part l wv slot info))%nat -> dec_manifest bank (take k (h ++ index_part l wv slot info ++ tail)) = None.
Proof.
  intros bank h l wv slot info tail k [Hb Hs0] Hl Hw Hs Hi Hk. unfold dec_manifest. rewrite app_length in Hk.
  rewrite app_assoc, take_app_le by (rewrite app_length; lia).
  destruct (decide (k < length h)%nat) as [Hlt|Hge].
  - rewrite take_app_le by lia. by rewrite Hs0.
  - rewrite take_app_ge by lia. rewrite Hb. pose proof (fields_index (take (k - length h) (index_part l wv slot info))) as H.
    rewrite (codec_strict d_need (index_part l wv slot info) (l, wv, slot, info)) in H; [|apply need_mono| |lia].
    + destruct (d_fields _) as [[f r]|]; [done|done].
    + rewrite <- (app_nil_r (index_part l wv slot info)). by apply index_part_need.
Qed.
Print Assumptions C76_truncated_manifest.
(** The two statements decide every length: a manifest cut anywhere is read exactly when the whole index is there. *)
Theorem C76_cut_anywhere : forall bank h l wv slot info tail k,
  bank_reads bank h -> files_ok l -> wv < 2 ^ 64 -> slot < 2 ^ 64 -> length info = 104%nat ->
  ((exists ix, dec_manifest bank (take k (h ++ index_part l wv slot info ++ tail)) = Some ix) <-> (length (h ++ index_part l wv slot info) <= k)%nat) /\
  forall ix, dec_manifest bank (take k (h ++ index_part l wv slot info ++ tail)) = Some ix -> says ix l.
Proof.
  intros bank h l wv slot info tail k Hb Hl Hw Hs Hi.
  destruct (decide (k < length (h ++ index_part l wv slot info))%nat) as [Hlt|Hge].
  - rewrite (C76_truncated_manifest _ _ _ _ _ _ _ _ Hb Hl Hw Hs Hi Hlt). split; [|done]. split; [by intros [? ?]|lia].
  - rewrite app_assoc, take_app_ge by lia. rewrite <- app_assoc.
    destruct (C76_manifest_round_trip bank h l wv slot info (take (k - length (h ++ index_part l wv slot info)) tail) Hb Hl Hw Hs Hi) as (ix & Hd & Hix).
    rewrite Hd. split; [|by intros ix' [= <-]]. split; [lia|eauto].
Qed.
Print Assumptions C76_cut_anywhere.

(** An archive whose manifest is as the validator writes it delivers the files the manifest lists (C66 without assumptions on the
    decoder). *)
Lemma says_listed ix l slot id len fs : says ix l -> (slot, fs) ∈ l -> (id, len) ∈ fs -> NoDup fs.*1 -> listed ix slot id len.
Proof. intros Hs Hl Hf Hnd. exists fs. split; [by apply Hs|]. by split. Qed.
Theorem C66_whole_archive : forall bank h l wv slot info tail pre man files (meta : list (N * N * N)),
  bank_reads bank h -> files_ok l -> wv < 2 ^ 64 -> slot < 2 ^ 64 -> length info = 104%nat ->
  Forall (fun e => NoDup e.2.*1) l ->
  Forall harmless_entry pre -> manifest_entry man -> en_data man = h ++ index_part l wv slot info ++ tail ->
  Forall2 (fun e m => file_entry e m.1.1 m.1.2 /\ exists fs, (m.1.1, fs) ∈ l /\ (m.1.2, m.2) ∈ fs) files meta ->
  exists ix rest vs, from_reader (dec_manifest bank) (map Some (pre ++ man :: files)) = SOk (ix, rest) /\
    archive_vecs ix rest = SOk <$> vs /\
    Forall2 (fun v em => av_slot v = em.2.1.1 /\ av_len v = em.2.2 /\ av_map v = resize (N.to_nat em.2.2) "000"%byte (en_data em.1)) vs (zip files meta).
Proof.
  intros bank h l wv slot info tail pre man files meta Hb Hl Hw Hs Hi Hnd Hpre Hman Hd Hf.
  destruct (C76_manifest_round_trip bank h l wv slot info tail Hb Hl Hw Hs Hi) as (ix & Hdec & Hix).
  destruct (C66_listed_files (dec_manifest bank) ix pre man files meta Hpre Hman) as (Hfr & vs & Hvs & Hall).
  - by rewrite Hd.
  - eapply Forall2_impl; [exact Hf|]. intros e m (He & fs & H1 & H2). split; [done|].
    eapply says_listed; [done|exact H1|done|]. rewrite Forall_forall in Hnd. exact (Hnd _ H1).
  - eauto 10.
Qed.
Print Assumptions C66_whole_archive.
(** A file that the manifest lists but the archive does not contain goes unnoticed. *)
Definition bank0 (b : bytes) : option bytes := if decide (4 <= length b)%nat then Some (drop 4 b) else None.
Definition files0 : list (N * list (N * N)) := [(9, [(1, 290); (2, lenN f12)]); (4, [])].
Definition info0 : bytes := replicate 104 "001"%byte.
Definition header0 : bytes := n2b <$> [1; 2; 3; 4].
Lemma bank0_reads : bank_reads bank0 header0.
Proof.
  unfold bank_reads, bank0. split; [intros r; by rewrite decide_True by (simpl; lia)|]. intros k Hk. rewrite decide_False; [done|]. rewrite take_length. unfold header0 in *. rewrite fmap_length in *. cbn [length] in *. lia.
Qed.
Lemma files0_ok : files_ok files0.
Proof. split; [apply (bool_decide_unpack _); by vm_compute|]. split; [by vm_compute|]. repeat constructor; by vm_compute. Qed.
Example C76_example_hyps : bank_reads bank0 header0 /\ files_ok files0 /\ 7 < 2 ^ 64 /\ 9 < 2 ^ 64 /\ length info0 = 104%nat /\
  (fun ix => map_to_list ix) <$> dec_manifest bank0 (header0 ++ index_part files0 7 9 info0) = Some [(9, [(1, 290); (2, lenN f12)]); (4, [])] /\
  dec_manifest bank0 (take 60 (header0 ++ index_part files0 7 9 info0)) = None.
Proof. split; [apply bank0_reads|]. split; [apply files0_ok|]. do 3 (split; [done|]). split; by vm_compute. Qed.
Definition man0 : entry := Entry (slot_dir (str [57])) (header0 ++ index_part files0 7 9 info0).
Example C66_whole_archive_example_hyps : Forall (fun e => NoDup e.2.*1) files0 /\ manifest_entry man0 /\
  Forall2 (fun e m => file_entry e m.1.1 m.1.2 /\ exists fs, (m.1.1, fs) ∈ files0 /\ (m.1.2, m.2) ∈ fs) [acc_file (str [57; 46; 50]) f12] [(9, 2, lenN f12)].
Proof.
  split; [repeat constructor; apply (bool_decide_unpack _); by vm_compute|].
  split; [exists (str [57]), 9; split; [done|]; split; [split; [exact (dec_one 9 eq_refl)|by vm_compute]|done]|].
  constructor; [|constructor]. split.
  - exists (str [57]), (str [50]). split; [done|]. split; [split; [exact (dec_one 9 eq_refl)|by vm_compute]|]. split; [split; [exact (dec_one 2 eq_refl)|by vm_compute]|]. done.
  - exists [(1, 290); (2, lenN f12)]. split; [left|right; left].
Qed.
Theorem C66_missing_file_refuted : exists es ix rest vs, from_reader (dec_manifest bank0) es = SOk (ix, rest) /\ listed ix 9 1 290 /\
  archive_vecs ix rest = SOk <$> vs /\ length vs = 1%nat.
Proof.
  exists [Some man0; Some (acc_file (str [57; 46; 50]) f12)]. eexists _, _, [_].
  split; [by vm_compute|]. split; [|split; [by vm_compute|done]].
  exists [(1, 290); (2, lenN f12)]. split; [by vm_compute|]. split; [left|]. apply (bool_decide_unpack _). by vm_compute.
Qed.
Print Assumptions C66_missing_file_refuted.

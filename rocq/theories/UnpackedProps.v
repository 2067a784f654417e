(** Theorems about snapshots unpacked to a directory (C74). *)
From Verif Require Import Base DataModel BincodeModel AvecModel AvecSpec AvecProofs AvecProps ManifestModel ManifestSpec ManifestProps UnpackedModel UnpackedSpec.

Lemma flatten_results l : flatten_ok (map (fun r : sres (sres avec) => match r with SOk x => SOk (result_iter x) | SErr e => SErr e end) (SOk <$> l)) =
  SOk <$> concat (result_iter <$> l).
Proof.
  unfold flatten_ok. induction l as [|[v|e] l IH]; [done| |].
  - rewrite fmap_cons. cbn [map concat]. rewrite IH. done.
  - rewrite fmap_cons. cbn [map concat]. rewrite IH. done.
Qed.
Lemma un_iter_eq ix st sn l : un_iter ix (Undir st sn (Some l)) = SOk <$> concat (result_iter <$> omap (un_entry ix) l).
Proof.
  unfold un_iter, iter_streams. cbn [ud_accounts]. rewrite <- flatten_results. do 2 f_equal. unfold flatten_ok. cbn [map concat]. by rewrite app_nil_r.
Qed.
Lemma un_iter_cons ix st sn e l : un_iter ix (Undir st sn (Some (e :: l))) =
  match un_entry ix e with Some (SOk v) => [SOk v] | _ => [] end ++ un_iter ix (Undir st sn (Some l)).
Proof. rewrite !un_iter_eq. cbn [omap list_omap]. by destruct (un_entry ix e) as [[v|e']|]. Qed.
Lemma named_parse name slot id : named name slot id -> parse_name name = Some (slot, id).
Proof. intros (s & s' & -> & Hs & Hs' & Hn & Hm). by apply (proj2 (C59_round_trip slot id Hn Hm) s s'). Qed.
Lemma usable_entry ix e m b : usable ix e m b -> un_entry ix e = Some (SOk (AVec b m.2 (lenN b) m.1.1)).
Proof.
  intros (name & -> & Hn & Hl & Hb & Hm). destruct m as [[slot id] len]. simpl in *. rewrite (named_parse _ _ _ Hn). unfold open_append_vec.
  rewrite (listed_known _ _ _ _ Hl). unfold new_from_file, sanitize. rewrite (proj2 (N.eqb_neq _ _)) by lia.
  assert (max_file_size = 2 ^ 34) as -> by done.
  destruct (N.ltb_spec (2 ^ 34) (lenN b)); [lia|]. by destruct (N.ltb_spec (lenN b) len); [lia|].
Qed.
Lemma unusable_entry ix e : unusable ix e -> exists r, un_entry ix e = Some (SErr r).
Proof.
  intros (name & c & slot & id & -> & Hn & H). simpl. rewrite (named_parse _ _ _ Hn). unfold un_file, open_append_vec.
  destruct H as [H|[->|(b & len & -> & Hl & Hb)]].
  - assert (known_len ix slot id = None) as ->; [|destruct c; eauto]. unfold known_len.
    destruct (list_find _ _) as [[i [j len]]|] eqn:E; [|done]. apply list_find_Some in E as (Hi & Hj & _). simpl in Hj. subst j.
    destruct (ix !! slot) as [l|] eqn:El; [|done]. exfalso. simpl in Hi. apply (H l len eq_refl). by apply elem_of_list_lookup_2 in Hi.
  - destruct (known_len ix slot id); eauto.
  - rewrite (listed_known _ _ _ _ Hl). unfold new_from_file, sanitize. destruct (lenN b =? 0); [eauto|]. destruct (max_file_size <? lenN b); [eauto|].
    destruct (N.ltb_spec (lenN b) len); [eauto|lia].
Qed.
Lemma other_entry ix e : other e -> un_entry ix e = None.
Proof.
  intros (name & c & -> & Ho). simpl. destruct (parse_name name) as [[n m]|] eqn:E; [|done]. exfalso. apply Ho.
  apply C59_accepted_names_partial in E as (_ & _ & x & y & ? & ? & ?). eauto 10.
Qed.

(** C74 (part): of a readable directory exactly the usable storage files are delivered, in the order of the directory, each with
    its slot, its recorded length and its contents. *)
Inductive delivers (ix : index_t) : list dirent -> list avec -> Prop :=
| del_nil : delivers ix [] []
| del_file e m b l v vs : usable ix e m b -> av_slot v = m.1.1 -> av_len v = m.2 -> av_map v = b -> delivers ix l vs ->
    av_size v = lenN b -> delivers ix (e :: l) (v :: vs)
| del_skip e l vs : unusable ix e \/ other e \/ e = None -> delivers ix l vs -> delivers ix (e :: l) vs.
Theorem C74_usable_files_partial : forall ix st sn l vs, delivers ix l vs -> un_iter ix (Undir st sn (Some l)) = SOk <$> vs.
Proof.
  intros ix st sn l vs. induction 1 as [|e m b l v vs Hu H1 H2 H3 _ IH H4|e l vs He _ IH]; [done| |]; rewrite un_iter_cons, IH.
  - rewrite (usable_entry _ _ _ _ Hu). destruct v. simpl in *. by subst.
  - destruct He as [[r ->]%unusable_entry|[->%(other_entry ix)| ->]]; done.
Qed.
Print Assumptions C74_usable_files_partial.
(** Conversely, whatever is delivered is a file of the directory that the manifest lists, and it is as long as recorded. *)
Theorem C74_delivered_partial : forall ix st sn l r, r ∈ un_iter ix (Undir st sn (Some l)) ->
  exists v name slot id, r = SOk v /\ Some (name, Some (av_map v)) ∈ l /\ parse_name name = Some (slot, id) /\ av_slot v = slot /\
    (exists fs, ix !! slot = Some fs /\ (id, av_len v) ∈ fs) /\ av_len v <= lenN (av_map v).
Proof.
  intros ix st sn l r. induction l as [|e l IH]; [by intros ?%elem_of_nil|]. rewrite un_iter_cons. intros [Hr|Hr]%elem_of_app.
  - destruct (un_entry ix e) as [[v|]|] eqn:E; [|by apply elem_of_nil in Hr..]. apply elem_of_list_singleton in Hr as ->.
    destruct e as [[name [b|]]|]; simpl in E; [| |done].
    + destruct (parse_name name) as [[slot id]|] eqn:Hp; [|done]. injection E as E. unfold open_append_vec in E.
      destruct (known_len ix slot id) as [len|] eqn:Hk; [|done]. unfold new_from_file, sanitize in E. destruct (lenN b =? 0); [done|].
      destruct (max_file_size <? lenN b); [done|]. destruct (N.ltb_spec (lenN b) len); [done|]. injection E as <-.
      exists (AVec b len (lenN b) slot), name, slot, id. split; [done|]. split; [left|]. do 2 (split; [done|]). simpl. split; [|done].
      unfold known_len in Hk. destruct (list_find _ _) as [[i [j len']]|] eqn:Hf; [|done]. injection Hk as ->.
      apply list_find_Some in Hf as (Hi & Hj & _). simpl in Hj. subst j. destruct (ix !! slot) as [fs|]; [|done].
      exists fs. split; [done|]. by apply elem_of_list_lookup_2 in Hi.
    + destruct (parse_name name) as [[slot id]|]; [|done]. unfold un_file in E. by destruct (known_len ix slot id).
  - destruct (IH Hr) as (v & name & slot & id & -> & Hin & ?). exists v, name, slot, id. split; [done|]. split; [by right|done].
Qed.
Print Assumptions C74_delivered_partial.
(** A directory of storage files that cannot be listed is reported. *)
Theorem C74_unreadable_directory : forall ix st sn, un_iter ix (Undir st sn None) = [SErr EIo].
Proof. done. Qed.
Print Assumptions C74_unreadable_directory.
(** The full claim, every unusable storage file is reported, is false: none ever is. *)
Theorem C74_never_reported : forall ix st sn l e, SErr e ∉ un_iter ix (Undir st sn (Some l)).
Proof. intros ix st sn l e H. rewrite un_iter_eq in H. apply elem_of_list_fmap in H as (v & ? & _). done. Qed.
Print Assumptions C74_never_reported.
Definition dir_of (l : list dirent) : undir := Undir true (Some []) (Some l).
Definition short_file : dirent := Some (str [57; 46; 50], Some (take 100 f12)).
Definition unlisted_file : dirent := Some (str [57; 46; 51], Some f12).
Definition locked_file : dirent := Some (str [57; 46; 49], None).
Lemma named_9 d : d < 10 -> named (str [57; 46; 48 + d]) 9 d.
Proof.
  intros Hd. exists (str [57]), (str [48 + d]). split; [done|]. split; [split; [exact (dec_one 9 eq_refl)|by vm_compute]|].
  split; [split; [by apply dec_one|]|split; [done|]].
  - simpl. intros [= H]. apply (f_equal b2n) in H. rewrite !b2n_n2b in H. rewrite N.mod_small in H by lia. rewrite N.mod_small in H by lia. split; [lia|].
    by replace d with 0 by lia.
  - lia.
Qed.
Lemma listed_ix1 : listed ix1 9 2 (lenN f12) /\ listed ix1 9 1 290.
Proof.
  split; (exists [(1, 290); (2, lenN f12)]; split; [by vm_compute|]; split; [|apply (bool_decide_unpack _); by vm_compute]); [right; left|left].
Qed.
Lemma three_unusable : unusable ix1 short_file /\ unusable ix1 unlisted_file /\ unusable ix1 locked_file.
Proof.
  split; [|split].
  - eexists _, _, 9, 2. split; [done|]. split; [by apply (named_9 2)|]. right. right. eexists _, _. split; [done|]. split; [apply listed_ix1|by vm_compute].
  - eexists _, _, 9, 3. split; [done|]. split; [by apply (named_9 3)|]. left. intros l len Hl Hin. vm_compute in Hl. injection Hl as <-. set_solver.
  - eexists _, _, 9, 1. split; [done|]. split; [by apply (named_9 1)|]. by right; left.
Qed.
Theorem C74_refuted : exists ix l, l <> [] /\ Forall (unusable ix) l /\ (exists e, e ∈ l /\ exists name c, e = Some (name, c) /\ listed ix 9 2 (lenN f12) /\ named name 9 2) /\
  un_iter ix (dir_of l) = [].
Proof.
  exists ix1, [short_file; unlisted_file; locked_file]. split; [done|]. destruct three_unusable as (H1 & H2 & H3). split; [by repeat constructor|].
  split; [|by vm_compute]. exists short_file. split; [left|]. eexists _, _. split; [done|]. split; [apply listed_ix1|by apply (named_9 2)].
Qed.
Print Assumptions C74_refuted.
Example C74_example_hyps : exists vs, delivers ix1 [Some (str [120], None); short_file; Some (str [57; 46; 50], Some f12); None; locked_file] vs /\ length vs = 1%nat.
Proof.
  destruct three_unusable as (H1 & H2 & H3). exists [AVec f12 (lenN f12) (lenN f12) 9]. split; [|done].
  apply del_skip. { right. left. eexists _, _. split; [done|]. intros (a & b & n & m & H & Ha & Hb). destruct a as [|x a]; simpl in H.
    - apply (f_equal head) in H. by vm_compute in H.
    - injection H as _ H. by destruct a. }
  apply del_skip; [by left|]. apply (del_file _ _ (9, 2, lenN f12) f12); [|done|done|done| |done].
  - exists (str [57; 46; 50]). split; [done|]. split; [by apply (named_9 2)|]. split; [apply listed_ix1|]. split; [|done]. by vm_compute.
  - apply del_skip; [by right; right|]. apply del_skip; [by left|]. apply del_nil.
Qed.

(** Opening: with the status cache in place and one manifest, the order of the directory does not matter and the index is the one
    the manifest contains. *)
Lemma no_number_skip e l : no_number e -> find_manifest (e :: l) = find_manifest l.
Proof.
  intros [->|(name & c & -> & Hn)]; [done|]. simpl. destruct (u64_from_str name) as [n|] eqn:E; [|done].
  exfalso. apply Hn. apply u64_spec in E as [_ E]. eauto.
Qed.
Lemma manifest_found e b l : manifest_dir e b -> find_manifest (e :: l) = Some (Some b).
Proof. intros (name & n & -> & [Hd _] & Hn). simpl. by rewrite (proj2 (u64_spec name n)) by auto. Qed.
Theorem C74_open : forall bank h l wv slot info tail pre e post acc,
  bank_reads bank h -> files_ok l -> wv < 2 ^ 64 -> slot < 2 ^ 64 -> length info = hash_info_len ->
  Forall no_number pre -> manifest_dir e (h ++ index_part l wv slot info ++ tail) -> Forall no_number post ->
  exists ix, un_open (dec_manifest bank) (Undir true (Some (pre ++ e :: post)) acc) = OOk ix /\ says ix l.
Proof.
  intros bank h l wv slot info tail pre e post acc Hb Hl Hw Hs Hi Hpre He _.
  destruct (C76_manifest_round_trip bank h l wv slot info tail Hb Hl Hw Hs Hi) as (ix & Hd & Hix). exists ix. split; [|done].
  unfold un_open. simpl. assert (find_manifest (pre ++ e :: post) = Some (Some (h ++ index_part l wv slot info ++ tail))) as ->.
  { induction Hpre as [|x pre Hx _ IH]; [by apply manifest_found|]. rewrite <- app_comm_cons, no_number_skip by done. apply IH. }
  by rewrite Hd.
Qed.
Print Assumptions C74_open.
(** What is missing is reported: the status cache, the manifest, its contents. *)
Theorem C74_open_errors : forall dec sn acc l e b,
  un_open dec (Undir false sn acc) = OBad ONoStatusCache /\ un_open dec (Undir true None acc) = OBad (OErr EIo) /\
  (Forall no_number l -> un_open dec (Undir true (Some l) acc) = OBad (OErr ENoManifest)) /\
  (Forall no_number l -> manifest_dir e b -> dec b = None -> un_open dec (Undir true (Some (l ++ [e])) acc) = OBad (OErr EBincode)).
Proof.
  intros dec sn acc l e b. split; [done|]. split; [done|]. split.
  - intros Hl. unfold un_open. simpl. assert (find_manifest l = None) as ->; [|done]. induction Hl as [|x l Hx _ IH]; [done|]. by rewrite no_number_skip.
  - intros Hl He Hd. unfold un_open. simpl. assert (find_manifest (l ++ [e]) = Some (Some b)) as ->; [|by rewrite Hd].
    induction Hl as [|x l Hx _ IH]; [by apply manifest_found|]. rewrite <- app_comm_cons, no_number_skip by done. apply IH.
Qed.
Print Assumptions C74_open_errors.
(** With two manifests (a full and an incremental snapshot unpacked to one place) the order in which the file system lists them
    decides which storage files are known. *)
Definition man_of (name : bytes) (l : list (N * list (N * N))) : dirent := Some (name, Some (header0 ++ index_part l 7 9 info0)).
Theorem C74_two_manifests_refuted : exists bank e1 e2 acc ix ix', (exists b, manifest_dir e1 b) /\ (exists b, manifest_dir e2 b) /\
  un_open (dec_manifest bank) (Undir true (Some [e1; e2]) acc) = OOk ix /\ un_open (dec_manifest bank) (Undir true (Some [e2; e1]) acc) = OOk ix' /\
  ix !! 9 <> ix' !! 9.
Proof.
  exists bank0, (man_of (str [57]) files0), (man_of (str [56]) [(8, [])]), (Some []). eexists _, _.
  split; [eexists _, _, 9; split; [done|]; split; [split; [exact (dec_one 9 eq_refl)|by vm_compute]|done]|].
  split; [eexists _, _, 8; split; [done|]; split; [split; [exact (dec_one 8 eq_refl)|by vm_compute]|done]|].
  split; [by vm_compute|]. split; [by vm_compute|]. by vm_compute.
Qed.
Print Assumptions C74_two_manifests_refuted.
Example C74_open_example_hyps : Forall no_number [None; Some (str [115], None)] /\ manifest_dir (man_of (str [57]) files0) (header0 ++ index_part files0 7 9 info0 ++ []).
Proof.
  split.
  - constructor; [by left|]. constructor; [|constructor]. right. eexists _, _. split; [done|]. intros [n [Hd|(s & [=] & _)]].
    apply decimal_bytes in Hd as [_ Hd]. apply Forall_cons in Hd as [[_ Hd] _]. by vm_compute in Hd.
  - eexists _, 9. split; [by rewrite app_nil_r|]. split; [split; [exact (dec_one 9 eq_refl)|by vm_compute]|done].
Qed.

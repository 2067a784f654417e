(** On an orderly stream of which only a part is of interest, the store shows the part of the ledger that is (C99). *)
From Verif Require Import Base SMap DataModel FilterModel FilterProps BincodeModel ByCommitModel ByCommitSpec ByCommitProofs
  FilterSpec StoreModel StoreSpec StoreProofs StoreSlot StoreViews StoreHist StoreEffects StoreProps OwnerSpec OwnerProofs OwnerProps
  LedgerSpec LedgerProofs LedgerInv LedgerSteps LedgerSlots LedgerFin LedgerRun LedgerProps LedgerQueryProps LedgerFilterSpec LedgerFilterProofs.

Lemma with_in F h F' o : (F', o) ∈ with_filters F h <-> F' = F /\ o ∈ h.
Proof. unfold with_filters. rewrite elem_of_list_fmap. split; [intros (o' & [= -> ->] & ?); done|intros [-> ?]; eauto]. Qed.
Lemma with_split F h k1 F' o k2 : with_filters F h = k1 ++ (F', o) :: k2 -> exists h1 h2, h = h1 ++ o :: h2 /\ k1 = with_filters F h1 /\ k2 = with_filters F h2 /\ F' = F.
Proof.
  revert h. induction k1 as [|[F0 o0] k1 IH]; intros [|o1 h]; simpl; try done.
  - intros [= -> -> <-]. by exists [], h.
  - intros [= -> -> H]. apply IH in H as (h1 & h2 & -> & -> & -> & ->). by exists (o0 :: h1), h2.
Qed.
Lemma given_versions F h a : a ∈ given (with_filters F h) -> versions_in h (d_pubkey a) a.
Proof.
  unfold given. rewrite elem_of_list_omap. intros ([F' o] & [-> Hin]%with_in & Hg). exists o. split; [done|]. split; [|done]. unfold given1 in Hg. destruct o; simpl in *; try done; congruence.
Qed.
Lemma delivers_given1 F o a : match o with OLoad _ _ => False | _ => True end -> delivers o a <-> given1 (F, o) = Some a.
Proof. destruct o; simpl; try done; intros _; unfold given1; simpl; split; congruence. Qed.

Lemma versions_app h1 h2 pk a : versions_in (h1 ++ h2) pk a <-> versions_in h1 pk a \/ versions_in h2 pk a.
Proof.
  unfold versions_in. split; [intros (o & [H|H]%elem_of_app & ?); eauto|]. intros [(o & H & ?)|(o & H & ?)]; exists o; (split; [set_solver|done]).
Qed.

Section follow.
Context (F : filt) (ops : list op) (W : acct -> Prop).
Let sat := fl_sat F.
Let h := with_filters F ops.
Hypothesis HW : forall pk a, versions_in ops pk a -> W a <-> sat a = true.
Hypothesis Hnl : forall o, o ∈ ops -> match o with OLoad _ _ => False | _ => True end.

(** No version delivered in the first part is kept. *)
Lemma first_dropped h1 h2 pk : ops = h1 ++ h2 -> (forall a, versions_in h1 pk a -> ~ W a) ->
  forall F' o a, (F', o) ∈ keep sat [] (with_filters F h1) -> delivers o a -> d_pubkey a = pk -> False.
Proof.
  intros Hh Hn F' o a Hin Hd Hpk. apply keep_in in Hin as (k1 & k2 & Hs & Hk). simpl in Hk. pose proof Hs as Hs'. apply with_split in Hs' as (g1 & g2 & -> & -> & -> & ->).
  assert (match o with OLoad _ _ => False | _ => True end) as Ho by (apply Hnl; rewrite Hh; set_solver).
  apply (keptb_spec sat _ _ a (proj1 (delivers_given1 F o a Ho) Hd)) in Hk as (b & Hb & Hsb & Eb).
  assert (versions_in (g1 ++ o :: g2) pk b) as Hv.
  { rewrite <- Hpk, <- Eb. apply (given_versions F). rewrite Hs. replace (with_filters F g1 ++ (F, o) :: with_filters F g2) with ((with_filters F g1 ++ [(F, o)]) ++ with_filters F g2) by (by rewrite <- app_assoc).
    rewrite given_app. set_solver. }
  apply (Hn b Hv), (HW pk); [|done]. rewrite Hh. apply versions_app. by left.
Qed.
Lemma with_app h1 h2 : with_filters F (h1 ++ h2) = with_filters F h1 ++ with_filters F h2.
Proof. apply map_app. Qed.
Lemma kept_second h1 h2 pk : ops = h1 ++ h2 -> (forall a, versions_in h1 pk a -> ~ W a) ->
  forall F' o a, (F', o) ∈ keep sat [] h -> delivers o a -> d_pubkey a = pk -> F' = F /\ o ∈ h2.
Proof.
  intros Hh Hn F' o a Hin Hd Hpk. unfold h in Hin. rewrite Hh, with_app, keep_app in Hin. apply elem_of_app in Hin as [Hin|Hin].
  - by destruct (first_dropped h1 h2 pk Hh Hn F' o a Hin Hd Hpk).
  - by apply keep_sub, with_in in Hin.
Qed.
Lemma follows_regular pk : follows W ops pk -> steady (keep sat [] h) pk \/ closes_once (keep sat [] h) pk.
Proof.
  intros (h1 & h2 & Hh & Hn & _ & Hc). pose proof (kept_second h1 h2 pk Hh Hn) as Hsec.
  assert (forall F' o a, (F', o) ∈ keep sat [] h -> delivers o a -> d_pubkey a = pk -> versions_in h2 pk a) as Hv.
  { intros F' o a Hin Hd Hpk. destruct (Hsec F' o a Hin Hd Hpk) as [_ ?]. by exists o. }
  assert (forall F' o, (F', o) ∈ keep sat [] h -> F' = F) as HF by (intros F' o Hin; by apply keep_sub, with_in in Hin as [? _]).
  assert (forall a, versions_in h2 pk a -> versions_in ops pk a) as Hop by (intros a Ha; rewrite Hh; apply versions_app; by right).
  destruct Hc as [[Hw Hc]|[Hw Hc]]; [left|right].
  - split.
    + intros F1 o1 F2 o2 a H1 H2 Hd Hpk. rewrite (HF _ _ H1). pose proof (Hv _ _ _ H2 Hd Hpk) as Ha. apply (HW pk); auto.
    + destruct Hc as [Hc|Hc]; [left; eauto|right]. intros F1 o1 a F2 o2 a' H1 H2 Hd1 Hd2 Hp1 Hp2. eauto.
  - split.
    + intros F1 o1 F2 o2 a H1 H2 Hd Hpk Hal. rewrite (HF _ _ H1). pose proof (Hv _ _ _ H2 Hd Hpk) as Ha. apply (HW pk); auto.
    + intros g1 F' o g2 a Hs Hd Hpk Hal. pose proof Hs as Hin0. apply keep_split in Hs as (k1 & k2 & Hk & Hkp & -> & ->). simpl in *. pose proof Hk as Hk'. unfold h in Hk'. apply with_split in Hk' as (o1 & o2 & Ho & -> & -> & ->).
      destruct (Hsec F o a) as [_ Ho2]; [rewrite Hin0; set_solver|done|done|].
      (* the closing is in the second part *)
      assert (exists z, o1 = h1 ++ z /\ h2 = z ++ o :: o2) as (z & -> & ->).
      { rewrite Hh in Ho. apply app_eq_inv in Ho as [(z & -> & Ho)|(z & -> & Ho)]; [|by exists z].
        destruct z as [|o' z]; [exists []; rewrite !app_nil_r in *; done|]. injection Ho as <- ->. exfalso.
        apply (first_dropped (o1 ++ o :: z) h2 pk Hh Hn F o a); [|done|done]. unfold with_filters. rewrite map_app, keep_app. apply elem_of_app. right.
        simpl. unfold with_filters in Hkp. rewrite Hkp. set_solver. }
      destruct (Hc z o o2 a eq_refl Hd Hpk Hal) as [Hc1 Hc2]. split.
      * intros F2 o' b Hb Hdb Hpb. apply Hc1. rewrite with_app, keep_app in Hb. apply elem_of_app in Hb as [Hb|Hb]; [by destruct (first_dropped h1 _ pk Hh Hn F2 o' b Hb Hdb Hpb)|].
        exists o'. split; [|done]. by apply keep_sub, with_in in Hb as [_ ?].
      * intros F2 o' b Hb Hdb Hpb. apply (Hc2 b). exists o'. split; [|done]. by apply keep_sub, with_in in Hb as [_ ?].
Qed.
(** A version that counts but is not kept is older than all those kept. *)
Lemma dropped_older pk L c c' x b : orderly h L -> follows W ops pk -> d_pubkey x = pk -> d_pubkey b = pk -> counts L c x -> counts (kept_ledger sat L h) c' b ->
  counts (kept_ledger sat L h) c x \/ (~ W x /\ version_le x b /\ (x = b \/ ~ version_le b x)).
Proof.
  intros Ho (h1 & h2 & Hh & Hn & Hold & Hc) Ex Eb Hx Hb. destruct (counts_kept sat _ _ _ _ Ho Hx) as [(y & k1 & k2 & Hs & Hg & Hk)|?]; [right|by left].
  destruct y as [F' o]. pose proof Hs as Hs'. unfold h in Hs'. apply with_split in Hs' as (o1 & o2 & Hop & -> & -> & ->).
  assert (match o with OLoad _ _ => False | _ => True end) as Hol by (apply Hnl; rewrite Hop; set_solver).
  pose proof (proj2 (delivers_given1 F o x Hol) Hg) as Hd.
  assert (versions_in ops pk x) as Hvx by (exists o; split; [rewrite Hop; set_solver|done]).
  assert (~ W x) as HWx.
  { intros Hw. apply (HW pk x Hvx) in Hw. assert (keptb sat (with_filters F o1) (F, o) = true); [|congruence]. apply (keptb_spec sat _ _ x Hg). exists x. split; [|done].
    rewrite given_app. apply elem_of_app. right. apply elem_of_list_omap. exists (F, o). set_solver. }
  split; [done|].
  assert (exists F' o', (F', o') ∈ keep sat [] h /\ delivers o' b) as (F' & o' & Hin & Hdb).
  { destruct Hb as [Hb|[Hb _]]; simpl in Hb; [apply loads_in in Hb as [F' Hb]; exists F', (OInit b); done|apply writes_in in Hb as (F' & cc & Hb); exists F', (OUpdate b cc); done]. }
  destruct (kept_second h1 h2 pk Hh Hn F' o' b Hin Hdb Eb) as [-> Ho2]. assert (versions_in h2 pk b) as Hvb by (by exists o').
  rewrite Hh in Hop. apply app_eq_inv in Hop as [(z & Ez & Hz)|(z & -> & Hz)].
  { destruct z as [|o'' z]; [|injection Hz as <- ->].
    - simpl in Hz. rewrite app_nil_r in Ez. subst h1.
      (* first of the second part *)
      destruct Hc as [[Hw _]|[Hw Hc]]; [destruct HWx; apply Hw; exists o; split; [rewrite <- Hz; set_solver|done]|].
      destruct (decide (0 < d_lamports x)) as [Hal|Hal]; [destruct HWx; apply Hw; [exists o; split; [rewrite <- Hz; set_solver|done]|done]|].
      destruct (Hc [] o o2 x (eq_sym Hz) Hd Ex Hal) as [_ Hc2]. rewrite <- Hz in Hvb. destruct Hvb as (o3 & H3 & Hd3 & E3). apply elem_of_cons in H3 as [->|H3].
      + assert (b = x) as -> by (destruct o; simpl in *; try done; congruence). split; [apply version_le_refl|by left].
      + destruct (Hc2 b). by exists o3.
    - assert (versions_in h1 pk x) as Hv1 by (exists o; split; [rewrite Ez; set_solver|done]). specialize (Hold x b Hv1 Hvb). split; [unfold version_le in *; lia|by right]. }
  destruct Hc as [[Hw _]|[Hw Hc]]; [destruct HWx; apply Hw; exists o; split; [rewrite Hz; set_solver|done]|].
  destruct (decide (0 < d_lamports x)) as [Hal|Hal]; [destruct HWx; apply Hw; [exists o; split; [rewrite Hz; set_solver|done]|done]|].
  destruct (Hc z o o2 x Hz Hd Ex Hal) as [_ Hc2]. exfalso.
  (* nothing of the account is kept: no wanted version comes before the closing, and none at all after it *)
  apply elem_of_list_split in Hin as (g1 & g2 & Hin). apply keep_split in Hin as (m1 & m2 & Hm & Hkm & _ & _). simpl in Hkm.
  unfold h in Hm. apply with_split in Hm as (p1 & p2 & Hp & -> & -> & _).
  assert (match o' with OLoad _ _ => False | _ => True end) as Hol' by (apply Hnl; rewrite Hp; set_solver).
  apply (keptb_spec sat _ _ b (proj1 (delivers_given1 F o' b Hol') Hdb)) in Hkm as (w & Hw0 & Hsw & Ew).
  assert (versions_in (p1 ++ [o']) pk w) as Hvw.
  { rewrite <- Eb, <- Ew. apply (given_versions F). by rewrite with_app. }
  assert (~ versions_in o2 pk w) as Hnw by apply Hc2.
  (* so the wanted version is before the closing *)
  assert (versions_in (h1 ++ z) pk w \/ w = x) as Hwz.
  { assert (versions_in ops pk w) as Hvo by (rewrite Hp; replace (p1 ++ o' :: p2) with ((p1 ++ [o']) ++ p2) by (by rewrite <- app_assoc); apply versions_app; by left).
    rewrite Hh, Hz, app_assoc in Hvo. apply versions_app in Hvo as [?|Hvo]; [by left|]. destruct Hvo as (o3 & H3 & Hd3 & E3). apply elem_of_cons in H3 as [->|H3]; [|destruct Hnw; by exists o3].
    right. destruct o; simpl in *; try done; congruence. }
  destruct Hwz as [Hwz|Heqw]; [|subst w; destruct HWx; by apply (HW pk)].
  assert (keptb sat (with_filters F (h1 ++ z)) (F, o) = true); [|congruence]. apply (keptb_spec sat _ _ x Hg). exists w. split; [|split; [done|congruence]].
  rewrite given_app. apply elem_of_app. left. destruct Hwz as (o3 & H3 & Hd3 & E3). apply elem_of_list_omap. exists (F, o3). split; [by apply with_in|].
  apply delivers_given1; [|done]. apply Hnl. rewrite Hh, Hz, app_assoc. set_solver.
Qed.
Lemma kept_latest pk L c b : orderly h L -> follows W ops pk -> in_ledger (kept_ledger sat L h) pk c (Some b) -> in_ledger L pk c (Some b).
Proof.
  intros Ho Hf [[Hb Eb] Hm]. split; [split; [by eapply kept_counts|done]|]. intros x [Hx Ex].
  destruct (dropped_older pk L c c x b Ho Hf Ex Eb Hx Hb) as [Hk|[_ [? _]]]; [|done]. by apply Hm.
Qed.
Lemma latest_kept pk L c a : orderly h L -> in_ledger L pk c (Some a) -> counts (kept_ledger sat L h) c a -> in_ledger (kept_ledger sat L h) pk c (Some a).
Proof. intros Ho [[Ha Ea] Hm] Hk. split; [done|]. intros x [Hx Ex]. apply Hm. split; [by eapply kept_counts|done]. Qed.
End follow.

(** Conditions on the accounts delivered carry over to the calls that are kept. *)
Lemma keep_delivered sat h a : delivered_in (keep sat [] h) a -> delivered_in h a.
Proof. intros (F & o & Hin & Hd). exists F, o. split; [by eapply keep_sub|done]. Qed.
Lemma keep_loads sat h : loads_in_order h -> loads_in_order (keep sat [] h).
Proof.
  intros Hl g1 F a g2 F' o b Hs Hin Hd Hpk. apply keep_split in Hs as (k1 & k2 & -> & _ & -> & _). eapply (Hl k1 F a k2 F' o b); [done|by eapply keep_sub|done|done].
Qed.
Lemma keep_differ sat h : versions_differ h -> versions_differ (keep sat [] h).
Proof. intros Hv F o a F' o' b H1 H2. apply (Hv F o a F' o' b); by eapply keep_sub. Qed.
Lemma orderly_noload F ops L : orderly (with_filters F ops) L -> forall o, o ∈ ops -> match o with OLoad _ _ => False | _ => True end.
Proof.
  intros Ho o Hin. pose proof (orderly_loadless (fl_sat F) _ _ Ho) as Hl. destruct (Hl) with F o as [_ ?]; [intros F' o' [-> _]%with_in; done|by apply with_in|done].
Qed.
(** What the filter store answers is what the configuration wants. *)
Lemma configured_wants E cfg fs a : Forall (decodable E) cfg -> add_filters E fstore_empty cfg = Done fs -> honest E a ->
  any_selects E cfg a <-> fl_sat (configured E fs) a = true.
Proof.
  intros Hd Ha (d & Hp & _). destruct (C01_admission_is_union E cfg a d Hd Hp) as (st & b & Hst & Hs & Hb). rewrite Ha in Hst. injection Hst as <-.
  simpl. rewrite Hs. by rewrite Hb.
Qed.

Section configured.
Context (E : ext) (cfg : list afilter) (fs : fstore) (ops : list op) (L : ledger) (st : store).
Let F := configured E fs.
Let h := with_filters F ops.
Let W := any_selects E cfg.
Context (Hd : Forall (decodable E) cfg) (Ha : add_filters E fstore_empty cfg = Done fs) (Hh : forall a, delivered_in h a -> honest E a)
  (Ho : orderly h L) (Hrun : run E store_empty h = Done st).
Let K := keep (fl_sat F) [] h.
Let KL := kept_ledger (fl_sat F) L h.

Lemma cf_wants pk a : versions_in ops pk a -> W a <-> fl_sat F a = true.
Proof. intros (o & Hin & Hdl & _). apply configured_wants; [done..|]. apply Hh. exists F, o. split; [by apply with_in|done]. Qed.
Lemma cf_run : run E store_empty K = Done st.
Proof. apply keep_run; [|done]. eapply orderly_loadless; [done|]. by intros F' o [-> _]%with_in. Qed.
Lemma cf_orderly : orderly K KL.
Proof. by apply kept_orderly. Qed.
Lemma cf_version c a : counts L c a -> versions_in ops (d_pubkey a) a.
Proof.
  intros Hc. destruct (orderly_received _ _ a Ho) as (F' & o & Hin & Hdl); [destruct Hc as [?|[? _]]; auto|]. apply with_in in Hin as [_ Hin]. by exists o.
Qed.
Lemma cf_kept c a : counts L c a -> W a -> counts KL c a.
Proof. intros Hc Hw. eapply wanted_kept; [done|done|]. apply (cf_wants (d_pubkey a)); [by eapply cf_version|done]. Qed.
End configured.

(** C99: an account that is of interest reads as the ledger has it; one that is not, as missing. *)
Theorem C99_reads_show_ledger : forall E cfg fs ops L st pk c,
  Forall (decodable E) cfg -> add_filters E fstore_empty cfg = Done fs ->
  let h := with_filters (configured E fs) ops in
  (forall a, delivered_in h a -> honest E a) -> orderly h L -> run E store_empty h = Done st -> follows (any_selects E cfg) ops pk ->
  exists r, get_account st pk c = Done (ROk r) /\
    ((exists o, in_ledger L pk c o /\ r = match o with Some a => if 0 <? d_lamports a then Some a else None | None => None end) \/
     (r = None /\ forall a, counts L c a -> d_pubkey a = pk -> ~ any_selects E cfg a)).
Proof.
  intros E cfg fs ops L st pk c Hd Ha h Hh Ho Hrun Hf. pose proof (cf_wants E cfg fs ops Hd Ha Hh) as HW. pose proof (orderly_noload _ _ _ Ho) as Hnl.
  pose proof (follows_regular _ ops _ HW Hnl pk Hf) as Hreg.
  destruct (C89_reads_show_ledger E _ _ st pk c (cf_orderly E fs ops L Ho) (cf_run E fs ops L st Ho Hrun) Hreg) as (o & Hin & Hg).
  eexists. split; [exact Hg|]. destruct o as [b|].
  - left. exists (Some b). split; [|done]. exact (kept_latest _ ops _ HW Hnl pk L c b Ho Hf Hin).
  - right. split; [done|]. intros a Hc Hpk Hw. apply (Hin a). split; [|done]. exact (cf_kept E cfg fs ops L Hd Ha Hh Ho c a Hc Hw).
Qed.
Print Assumptions C99_reads_show_ledger.

(** C99: a program query that is answered at all shows everything that the ledger has for it. *)
Theorem C99_queries_show_ledger : forall E cfg fs ops L st p fl c l,
  Forall (decodable E) cfg -> add_filters E fstore_empty cfg = Done fs ->
  let F := configured E fs in let h := with_filters F ops in
  (forall a, delivered_in h a -> honest E a) -> orderly h L -> run E store_empty h = Done st -> (forall pk, follows (any_selects E cfg) ops pk) ->
  owners_settle (delivered_in h) -> closed_apart (delivered_in h) -> loads_in_order h -> versions_differ h ->
  get_program_accounts E F st p fl c = Done (ROk l) ->
  NoDup (map d_pubkey l) /\
  (forall b, b ∈ l -> exists a, in_ledger L (d_pubkey b) c (Some a) /\ same_account E b a /\ d_owner b = p /\ meets E fl a) /\
  (forall a, in_ledger L (d_pubkey a) c (Some a) -> alive a -> d_owner a = p -> meets E fl a -> exists b, b ∈ l /\ same_account E b a).
Proof.
  intros E cfg fs ops L st p fl c l Hd Ha F h Hh Ho Hrun Hf Hset Hap Hld Hdf Hl. pose proof (cf_wants E cfg fs ops Hd Ha Hh) as HW. pose proof (orderly_noload _ _ _ Ho) as Hnl.
  destruct (C90_queries_show_ledger E _ _ st F p fl c l (cf_orderly E fs ops L Ho) (cf_run E fs ops L st Ho Hrun)) as (H1 & H2 & H3); try done.
  - intros pk. exact (follows_regular _ ops _ HW Hnl pk (Hf pk)).
  - intros x y z Hx Hy Hz. apply (Hset x y z); by eapply keep_delivered.
  - intros x y Hx Hy. apply (Hap x y); by eapply keep_delivered.
  - by apply keep_loads.
  - by apply keep_differ.
  - intros a Hda. apply Hh. by eapply keep_delivered.
  - split; [done|]. split.
    + intros b Hb. destruct (H2 b Hb) as (a & Hin & Hr). exists a. split; [|done]. exact (kept_latest _ ops _ HW Hnl _ L c a Ho (Hf _) Hin).
    + intros a Hin Hal Hop Hme. apply H3; try done. pose proof Hin as [[Hc _] _].
      assert (versions_in ops (d_pubkey a) a) as Hva by (exact (cf_version E fs ops L Ho c a Hc)).
      assert (fl_sat F a = true) as Hs.
      { (* the query is covered *)
        unfold get_program_accounts in Hl. destruct (fl_contains F (AFilter [] (Some p) fl)) eqn:Hcf; [|done]. simpl in Hcf.
        assert (delivered_in h a) as Hda by (destruct Hva as (o & Hin0 & Hdl & _); exists F, o; split; [by apply with_in|done]). destruct (Hh a Hda) as (d & Hp & _).
        simpl. rewrite (C02_contained_query_is_covered E cfg fs _ a d Hd Ha Hp Hcf); [done|]. right. simpl. split; [by rewrite Hop|].
        intros l0 Hl0. exists d. split; [done|]. intros x Hx. destruct (Hme l0 x Hl0 Hx) as (d' & Hp' & Hx'). unfold FilterSpec.plain in *. rewrite Hp in Hp'. by injection Hp' as <-. }
      apply latest_kept; [done|done|]. by apply wanted_kept.
Qed.
Print Assumptions C99_queries_show_ledger.

(** A slot leaves the versions alone. *)
Lemma kept_slot sat h L F si c L' : orderly h L -> event L (OSlot si c) L' -> event (kept_ledger sat L h) (OSlot si c) (kept_ledger sat L' (h ++ [(F, OSlot si c)])).
Proof.
  intros Ho He. destruct (orderly_lists _ _ Ho) as [Eb Ew]. unfold kept_ledger. rewrite keep_app. simpl keep. unfold loads, writes in *. rewrite !omap_app. simpl. rewrite !app_nil_r.
  inversion He; subst; simpl in *; try (by constructor).
  match goal with |- event ?L0 _ _ => refine (ev_root L0 si _ _ _) end; simpl; [done|done|]. intros b Hb. match goal with H : forall a, a ∈ lg_base L -> _ |- _ => apply H end. rewrite Eb. by eapply loads_keep.
Qed.

Lemma base_write L a b : lg_ok L -> a ∈ lg_base L -> b ∈ lg_writes L -> d_slot a < d_slot b.
Proof.
  intros Hok Ha Hb. pose proof (lo_writes _ Hok b Hb) as Hk. destruct (known_root _ _ Hok Hk) as [r Hr]. pose proof (lo_base _ Hok a r Ha Hr). pose proof (lo_min _ Hok _ r Hk Hr). lia.
Qed.
(** Whether a write counts depends on its slot. *)
Lemma counts_slot L c a x : lg_ok L -> counts L c x -> counts L Processed a -> d_slot x = d_slot a -> counts L c a.
Proof.
  intros Hok [Hx|[Hx Hc]] [Ha|[Ha _]] Es; try (by left).
  - pose proof (base_write _ _ _ Hok Hx Ha). lia.
  - right. split; [done|]. by rewrite <- Es.
Qed.
Lemma kept_at sat h L c a : orderly h L -> counts L c a -> counts (kept_ledger sat L h) Processed a -> counts (kept_ledger sat L h) c a.
Proof.
  intros Ho Hc [Hk|[Hk _]]; [by left|]. right. split; [done|]. simpl in Hk. apply writes_keep in Hk. destruct (orderly_lists _ _ Ho) as [_ Ew]. rewrite <- Ew in Hk.
  destruct Hc as [Hb|[_ Hc]]; [|done]. pose proof (base_write _ _ _ (orderly_ok _ _ Ho) Hb Hk). lia.
Qed.

(** C99: a notification reports the changes of the part of the ledger that is of interest. *)
Theorem C99_notifications_show_ledger : forall E cfg fs ops L si c L' st st' out,
  Forall (decodable E) cfg -> add_filters E fstore_empty cfg = Done fs ->
  let F := configured E fs in let h := with_filters F ops in
  (forall a, delivered_in h a -> honest E a) -> orderly h L -> event L (OSlot si c) L' -> run E store_empty h = Done st -> (forall pk, follows (any_selects E cfg) ops pk) ->
  process_slot F st si c = Done (st', out) ->
  NoDup (map d_pubkey out) /\
  (forall a, a ∈ out -> in_ledger L' (d_pubkey a) c (Some a) /\ forall x, counts L c x -> d_pubkey x = d_pubkey a -> d_slot x < d_slot a) /\
  (forall a, in_ledger L' (d_pubkey a) c (Some a) -> ~ counts L c a ->
     (exists x, counts L' Processed x /\ d_pubkey x = d_pubkey a /\ alive x /\ any_selects E cfg x /\ version_le x a) ->
     exists b, b ∈ out /\ d_pubkey b = d_pubkey a /\ d_slot b = d_slot a /\ d_wv b = d_wv a).
Proof.
  intros E cfg fs ops L si c L' st st' out Hd Ha F h Hh Ho He Hrun Hf Hps.
  set (ops' := ops ++ [OSlot si c]). set (h' := with_filters F ops'). assert (h' = h ++ [(F, OSlot si c)]) as Eh by (apply (with_app F)).
  assert (orderly h' L') as Ho' by (rewrite Eh; by econstructor).
  assert (forall a, delivered_in h' a -> delivered_in h a) as Hdl.
  { intros a (F0 & o & Hin & Hd0). rewrite Eh in Hin. apply elem_of_app in Hin as [Hin|Hin]; [by exists F0, o|]. apply elem_of_list_singleton in Hin. injection Hin as <- ->. done. }
  assert (forall a, delivered_in h' a -> honest E a) as Hh' by auto.
  assert (forall h1 pk a, versions_in (h1 ++ [OSlot si c]) pk a <-> versions_in h1 pk a) as Hvs.
  { intros h1 pk a. rewrite versions_app. split; [|by left]. intros [?|(o & Hin & Hd0 & _)]; [done|]. apply elem_of_list_singleton in Hin as ->. done. }
  assert (forall pk, follows (any_selects E cfg) ops' pk) as Hf'.
  { intros pk. destruct (Hf pk) as (h1 & h2 & Hops & H1 & H2 & H3). exists h1, (h2 ++ [OSlot si c]). unfold ops'. split; [by rewrite Hops, app_assoc|]. split; [done|].
    split; [intros a b Hva Hvb; apply (H2 a b Hva), (proj1 (Hvs _ _ _) Hvb)|]. destruct H3 as [[H3 H4]|[H3 H4]]; [left|right].
    - split; [intros a Hva; apply H3, (proj1 (Hvs _ _ _) Hva)|]. destruct H4 as [H4|H4]; [left; intros a Hva; apply H4, (proj1 (Hvs _ _ _) Hva)|right].
      intros a b Hva Hvb. apply H4; by apply (Hvs h2).
    - split; [intros a Hva; apply H3, (proj1 (Hvs _ _ _) Hva)|]. intros g1 o g2 a Hs Hdo Hpk Hal. destruct g2 as [|y g2 _] using rev_ind.
      + apply app_inj_tail in Hs as [_ <-]. done.
      + assert (h2 = g1 ++ o :: g2 /\ y = OSlot si c) as [Hs2 ->].
        { replace (g1 ++ o :: g2 ++ [y]) with ((g1 ++ o :: g2) ++ [y]) in Hs by (by rewrite <- app_assoc). by apply app_inj_tail in Hs as [? <-]. }
        destruct (H4 g1 o g2 a Hs2 Hdo Hpk Hal) as [H5 H6]. split; [done|]. intros b Hvb. apply (H6 b), (proj1 (Hvs _ _ _) Hvb). }
  pose proof (cf_wants E cfg fs ops' Hd Ha Hh') as HW'. pose proof (orderly_noload F ops' L' Ho') as Hnl'.
  set (K := keep (fl_sat F) [] h). set (KL := kept_ledger (fl_sat F) L h). set (KL' := kept_ledger (fl_sat F) L' h').
  assert (keep (fl_sat F) [] h' = K ++ [(F, OSlot si c)]) as EK by (rewrite Eh, keep_app; done).
  assert (event KL (OSlot si c) KL') as HeK by (unfold KL', KL; rewrite Eh; by apply kept_slot).
  assert (forall pk, steady (K ++ [(F, OSlot si c)]) pk \/ closes_once (K ++ [(F, OSlot si c)]) pk) as Hreg.
  { intros pk. rewrite <- EK. exact (follows_regular _ ops' _ HW' Hnl' pk (Hf' pk)). }
  destruct (C91_notifications_show_ledger E K KL F si c KL' st st' out (kept_orderly _ _ _ Ho) HeK (cf_run E fs ops L st Ho Hrun) Hps) as (H1 & H2 & H3).
  destruct (slot_event_writes _ _ _ _ He) as (Eb & Ew & _).
  assert (forall x, counts KL' Processed x -> counts KL Processed x) as Hback.
  { intros x. change (x ∈ loads (keep (fl_sat F) [] h') \/ (x ∈ writes (keep (fl_sat F) [] h') /\ True) -> x ∈ loads K \/ (x ∈ writes K /\ True)).
    rewrite EK. unfold loads, writes. rewrite !omap_app. simpl. by rewrite !app_nil_r. }
  assert (forall L0 c0 x, counts L0 c0 x -> counts L0 Processed x) as Hproc by (intros L0 c0 x [?|[? _]]; [by left|by right]).
  pose proof (cf_wants E cfg fs ops Hd Ha Hh) as HW. pose proof (orderly_noload F ops L Ho) as Hnl.
  split; [done|]. split.
  - intros a Hin. destruct (H2 a Hin (Hreg _)) as [Hl Hlt]. split; [exact (kept_latest F ops' _ HW' Hnl' _ L' c a Ho' (Hf' _) Hl)|].
    intros x Hx Ex. pose proof Hl as [[Hca _] _]. pose proof (Hback _ (Hproc _ _ _ Hca)) as Hka.
    destruct (dropped_older F ops _ HW Hnl (d_pubkey a) L c Processed x a Ho (Hf _) Ex eq_refl Hx Hka) as [Hk|(_ & Hle & _)]; [by apply Hlt|].
    destruct (decide (d_slot x = d_slot a)) as [Es|Hne]; [|unfold version_le in Hle; lia]. exfalso.
    pose proof (counts_slot L c a x (orderly_ok _ _ Ho) Hx (kept_counts _ _ _ _ _ Ho Hka) Es) as Hcl. specialize (Hlt a (kept_at _ _ _ _ _ Ho Hcl Hka) eq_refl). lia.
  - intros a Hl Hnc (x & Hx & Ex & Hax & Hwx & Hle). pose proof Hl as [[Hca _] _]. pose proof (cf_kept E cfg fs ops' L' Hd Ha Hh' Ho' _ _ Hx Hwx) as Hkx.
    assert (counts KL' c a) as Hka.
    { destruct (dropped_older F ops' _ HW' Hnl' (d_pubkey a) L' c Processed a x Ho' (Hf' _) eq_refl Ex Hca Hkx) as [?|(Hnw & _ & [->|?])]; done. }
    apply (H3 a (Hreg _)); [exact (latest_kept F ops' _ L' c a Ho' Hl Hka)| |by exists x].
    intros Hc. apply Hnc. eapply kept_counts; [exact Ho|exact Hc].
Qed.
Print Assumptions C99_notifications_show_ledger.

(** ** A configuration, and a stream of which only a part is of interest

    Accounts of program 7 with two bytes of data are wanted.  Account 5 is loaded without data, gets one byte in slot 10 and two in slot 11; account 6
    is wanted from its creation in slot 10 to its closing in slot 11; account 9 never. *)
Definition follow_cfg : list afilter := [flt_size 7 2].
Definition follow_fs : fstore := match add_filters ext_sample fstore_empty follow_cfg with Done fs => fs | Panic => fstore_empty end.
Definition follow_F : filt := configured ext_sample follow_fs.
Definition follow_ops : list op :=
  [ OInit (mk_acct 5 7 1 [] 8 1); OInit (mk_acct 9 3 1 [] 7 1); OSlot (SlotInfo 10 9 0) Processed; OUpdate (mk_acct 5 7 2 (bs [1]) 10 2) Processed;
    OUpdate (mk_acct 6 7 5 (bs [1; 2]) 10 3) Processed; OSlot (SlotInfo 10 9 0) Confirmed; OSlot (SlotInfo 11 10 0) Processed;
    OUpdate (mk_acct 5 7 3 (bs [1; 2]) 11 4) Processed; OUpdate (mk_acct 6 0 0 [] 11 5) Processed; OUpdate (mk_acct 9 3 2 [] 11 6) Processed;
    OSlot (SlotInfo 11 10 0) Confirmed; OSlot (SlotInfo 10 9 0) Finalized; OSlot (SlotInfo 12 11 0) Processed; OUpdate (mk_acct 5 7 4 (bs [3; 4]) 12 7) Processed ].
Definition follow_hist : list (filt * op) := with_filters follow_F follow_ops.
Definition deliver1 (o : op) : option acct := match o with OUpdate a _ => Some a | OInit a => Some a | _ => None end.
Definition vs (h : list op) (pk : pubkey) : list acct := filter (fun a => d_pubkey a = pk) (omap deliver1 h).
Definition loads_none (h : list op) : Prop := Forall (fun o => match o with OLoad _ _ => False | _ => True end) h.
Lemma vs_in h pk a : loads_none h -> versions_in h pk a <-> a ∈ vs h pk.
Proof.
  intros Hn. unfold versions_in, vs. rewrite elem_of_list_filter, elem_of_list_omap. unfold loads_none in Hn. rewrite Forall_forall in Hn. split.
  - intros (o & Hin & Hd & Hpk). split; [done|]. exists o. split; [done|]. specialize (Hn o Hin). destruct o; simpl in *; try done; congruence.
  - intros (Hpk & o & Hin & Hd). exists o. split; [done|]. split; [|done]. destruct o; simpl in *; try done; congruence.
Qed.
Definition version_leb (a b : acct) : bool := (d_slot a <? d_slot b) || ((d_slot a =? d_slot b) && (d_wv a <=? d_wv b)).
Lemma version_leb_spec a b : version_leb a b = false -> ~ version_le a b.
Proof. unfold version_leb, version_le. intros H Hle. apply orb_false_iff in H as [H1 H2]. apply N.ltb_ge in H1. destruct (N.eqb_spec (d_slot a) (d_slot b)); simpl in H2; [apply N.leb_gt in H2; lia|lia]. Qed.
Fixpoint closing_ok (pre v : list acct) : bool :=
  match v with
  | [] => true
  | a :: v' => ((0 <? d_lamports a) || (match v' with [] => true | _ => false end && forallb (fun b => negb (version_leb a b)) pre)) && closing_ok (pre ++ [a]) v'
  end.
Lemma closing_ok_spec pre v g1 a g2 : closing_ok pre v = true -> v = g1 ++ a :: g2 -> ~ alive a -> (forall b, b ∈ pre ++ g1 -> ~ version_le a b) /\ g2 = [].
Proof.
  revert pre g1. induction v as [|x v IH]; intros pre g1; simpl; [by destruct g1|]. intros [H1 H2]%andb_true_iff. destruct g1 as [|y g1]; simpl; intros Hv Hal.
  - injection Hv as -> ->. apply orb_true_iff in H1 as [H1%N.ltb_lt|H1]; [done|]. apply andb_true_iff in H1 as [H1 H3]. split; [|by destruct g2].
    rewrite app_nil_r. intros b Hb. rewrite forallb_forall in H3. apply version_leb_spec, negb_true_iff, H3. by apply elem_of_list_In.
  - injection Hv as -> ->. destruct (IH (pre ++ [y]) g1 H2 eq_refl Hal) as [IH1 ->]. split; [|done]. intros b Hb. apply IH1. by rewrite <- app_assoc.
Qed.
Lemma vs_app h1 h2 pk : vs (h1 ++ h2) pk = vs h1 pk ++ vs h2 pk.
Proof. unfold vs. by rewrite omap_app, filter_app. Qed.
Lemma follows_check W h1 h2 pk : loads_none h1 -> loads_none h2 -> Forall (fun a => ~ W a) (vs h1 pk) -> Forall (fun a => alive a -> W a) (vs h2 pk) ->
  forallb (fun a => forallb (fun b => negb (version_leb b a)) (vs h2 pk)) (vs h1 pk) = true -> closing_ok [] (vs h2 pk) = true -> follows W (h1 ++ h2) pk.
Proof.
  intros N1 N2 H1 H2 H3 H4. rewrite Forall_forall in H1, H2. exists h1, h2. split; [done|]. split; [intros a Ha; apply H1; by apply vs_in|]. split.
  - intros a b Ha%vs_in Hb%vs_in; [|done..]. rewrite forallb_forall in H3. specialize (H3 a (proj1 (elem_of_list_In _ _) Ha)). rewrite forallb_forall in H3.
    apply version_leb_spec, negb_true_iff, H3. by apply elem_of_list_In.
  - right. split; [intros a Ha; apply H2; by apply vs_in|]. intros g1 o g2 a -> Hd Hpk Hal. apply Forall_app in N2 as [N2 N3]. apply Forall_cons in N3 as [N3 N4].
    assert (vs (g1 ++ o :: g2) pk = vs g1 pk ++ a :: vs g2 pk) as Hv.
    { rewrite vs_app. f_equal. unfold vs. destruct o; simpl in *; try done; subst a; simpl; by rewrite filter_cons_True. }
    destruct (closing_ok_spec _ _ _ _ _ H4 Hv Hal) as [H5 H6]. split; [intros b Hb; apply H5; by apply vs_in|]. intros b Hb%vs_in; [|done]. rewrite H6 in Hb. by apply elem_of_nil in Hb.
Qed.
Lemma follow_wants a : any_selects ext_sample follow_cfg a <-> d_owner a = 7 /\ exists d, FilterSpec.plain ext_sample a d /\ lenN d = 2.
Proof.
  split.
  - intros (f & ->%elem_of_list_singleton & [H|[H1 H2]]); [by apply elem_of_nil in H|]. injection H1 as H1. split; [done|]. destruct (H2 _ eq_refl) as (d & Hp & Hd). exists d. split; [done|].
    apply (Hd (Datasize 2)). set_solver.
  - intros (H1 & d & Hp & Hd). exists (flt_size 7 2). split; [set_solver|]. right. split; [simpl; by rewrite H1|]. intros l [= <-]. exists d. split; [done|]. by intros c ->%elem_of_list_singleton.
Qed.
Ltac unwanted := intros (Hw & d & Hp & Hl)%follow_wants; first [done|injection Hp as <-; done].
Ltac wanted := apply follow_wants; split; [done|]; eexists; split; [done|done].
Lemma follow_follows pk : follows (any_selects ext_sample follow_cfg) follow_ops pk.
Proof.
  destruct (decide (pk = 5)) as [->|H5]; [|destruct (decide (pk = 6)) as [->|H6]; [|destruct (decide (pk = 9)) as [->|H9]]].
  - apply (follows_check _ (take 7 follow_ops) (drop 7 follow_ops)); [by repeat constructor..| | |done|done].
    + repeat constructor; unwanted.
    + repeat constructor; intros _; wanted.
  - apply (follows_check _ (take 4 follow_ops) (drop 4 follow_ops)); [by repeat constructor..| | |done|done].
    + constructor.
    + repeat constructor; intros Hal; [wanted|done].
  - rewrite <- (app_nil_r follow_ops). apply follows_check; [by repeat constructor..| | |done|done].
    + repeat constructor; unwanted.
    + constructor.
  - rewrite <- (app_nil_r follow_ops).
    assert (vs follow_ops pk = []) as Hv.
    { assert (forall a, a ∉ vs follow_ops pk) as Hn.
      { intros a [Hpk Ha]%elem_of_list_filter. simpl in Ha. rewrite !elem_of_cons, elem_of_nil in Ha. destruct_or?; subst; simpl in *; done. }
      destruct (vs follow_ops pk) as [|a l]; [done|]. destruct (Hn a). set_solver. }
    apply follows_check; [by repeat constructor|apply Forall_nil_2|rewrite Hv; apply Forall_nil_2|apply Forall_nil_2|by rewrite Hv|done].
Qed.

Lemma follow_given : forall a, delivered_in follow_hist a -> a ∈ given follow_hist.
Proof.
  intros a (F & o & Hin & Hd). apply elem_of_list_omap. exists (F, o). split; [done|]. apply with_in in Hin as [_ Hin]. apply delivers_given1; [|done].
  assert (loads_none follow_ops) as Hn by (by repeat constructor). unfold loads_none in Hn. rewrite Forall_forall in Hn. by apply Hn.
Qed.
Lemma follow_hyps : Forall (decodable ext_sample) follow_cfg /\ add_filters ext_sample fstore_empty follow_cfg = Done follow_fs /\
  (forall a, delivered_in follow_hist a -> honest ext_sample a) /\ orderly follow_hist (ledger_at follow_hist) /\ run ext_sample store_empty follow_hist = Done (final follow_hist).
Proof.
  split; [|split; [crunch|split; [|split; [apply ledger_of_orderly; crunch|crunch]]]].
  - apply Forall_singleton. intros l [= <-]. by repeat constructor.
  - intros a Ha%follow_given. let l := eval vm_compute in (omap deliver1 follow_ops) in assert (given follow_hist = l) as Hg by crunch. rewrite Hg in Ha. clear Hg.
    rewrite !elem_of_cons, elem_of_nil in Ha. destruct_or?; subst; try done; eexists; split; (reflexivity || done).
Qed.
Example C99_reads_show_ledger_example : Forall (decodable ext_sample) follow_cfg /\ add_filters ext_sample fstore_empty follow_cfg = Done follow_fs /\
  (forall a, delivered_in follow_hist a -> honest ext_sample a) /\ orderly follow_hist (ledger_at follow_hist) /\ run ext_sample store_empty follow_hist = Done (final follow_hist) /\
  (forall pk, follows (any_selects ext_sample follow_cfg) follow_ops pk) /\
  get_account (final follow_hist) 5 Processed = Done (ROk (Some (mk_acct 5 7 4 (bs [3; 4]) 12 7))) /\
  get_account (final follow_hist) 5 Confirmed = Done (ROk (Some (mk_acct 5 7 3 (bs [1; 2]) 11 4))) /\
  get_account (final follow_hist) 5 Finalized = Done (ROk None) /\
  get_account (final follow_hist) 6 Finalized = Done (ROk (Some (mk_acct 6 7 5 (bs [1; 2]) 10 3))) /\ get_account (final follow_hist) 6 Confirmed = Done (ROk None) /\
  get_account (final follow_hist) 9 Processed = Done (ROk None).
Proof.
  destruct follow_hyps as (H1 & H2 & H3 & H4 & H5). split; [exact H1|]. split; [exact H2|]. split; [exact H3|]. split; [exact H4|]. split; [exact H5|]. split; [exact follow_follows|].
  clear. split_and!; crunch.
Qed.
Example C99_queries_show_ledger_example : (forall pk, follows (any_selects ext_sample follow_cfg) follow_ops pk) /\
  owners_settle (delivered_in follow_hist) /\ closed_apart (delivered_in follow_hist) /\ loads_in_order follow_hist /\ versions_differ follow_hist /\
  get_program_accounts ext_sample follow_F (final follow_hist) 7 (Some [Datasize 2]) Finalized = Done (ROk [mk_acct 6 7 5 (bs [1; 2]) 10 3]) /\
  get_program_accounts ext_sample follow_F (final follow_hist) 7 (Some [Datasize 2]) Confirmed = Done (ROk [mk_acct 5 7 3 (bs [1; 2]) 11 4]) /\
  get_program_accounts ext_sample follow_F (final follow_hist) 3 None Confirmed = Done (RErr ConfigDoesnotContainRequiredFilters).
Proof.
  split; [exact follow_follows|]. split; [apply (settleb_spec (given follow_hist)); [crunch|exact follow_given]|].
  split; [apply (apartb_spec (given follow_hist)); [crunch|exact follow_given]|]. split; [|split; [|split_and!; crunch]].
  - intros h1 F a h2 F' o b Hh Hin Hd Hpk. assert (follow_hist !! length h1 = Some (F, OInit a)) as Hn by (by rewrite Hh, list_lookup_middle).
    assert (take (length h1) follow_hist = h1) as Ht by (by rewrite Hh, take_app). destruct (length h1) as [|[|n]].
    + simpl in Ht. subst h1. by apply elem_of_nil in Hin.
    + injection Hn as <- <-. rewrite <- Ht in Hin. apply elem_of_list_singleton in Hin. injection Hin as -> ->. simpl in Hd. subst b. done.
    + exfalso. assert (Forall (fun x => match snd x with OInit _ => False | _ => True end) (drop 2 follow_hist)) as Hall by (by repeat constructor).
      rewrite Forall_lookup in Hall. apply (Hall n (F, OInit a)). by rewrite lookup_drop.
  - intros F o a F' o' b Hin Hin' Hd Hd' E1 E2 E3.
    assert (a ∈ given follow_hist) as Ha by (apply follow_given; by exists F, o). assert (b ∈ given follow_hist) as Hb by (apply follow_given; by exists F', o').
    clear Hin Hin'. let l := eval vm_compute in (omap deliver1 follow_ops) in assert (given follow_hist = l) as Hg by crunch. rewrite Hg in Ha, Hb. clear Hg.
    rewrite !elem_of_cons, elem_of_nil in Ha. rewrite !elem_of_cons, elem_of_nil in Hb.
    destruct_or! Ha; subst a; destruct_or! Hb; subst b; first [done|exfalso; simpl in E1; discriminate E1|exfalso; simpl in E2; discriminate E2|exfalso; simpl in E3; discriminate E3].
Qed.
Example C99_notifications_show_ledger_example : exists out,
  event (ledger_at follow_hist) (OSlot (SlotInfo 11 10 0) Finalized) (ledger_at (follow_hist ++ [(follow_F, OSlot (SlotInfo 11 10 0) Finalized)])) /\
  process_slot follow_F (final follow_hist) (SlotInfo 11 10 0) Finalized = Done (final (follow_hist ++ [(follow_F, OSlot (SlotInfo 11 10 0) Finalized)]), out) /\
  out ≡ₚ [mk_acct 6 0 0 [] 11 5; mk_acct 5 7 3 (bs [1; 2]) 11 4] /\ any_selects ext_sample follow_cfg (mk_acct 5 7 3 (bs [1; 2]) 11 4).
Proof.
  exists (result_of [] (process_slot follow_F (final follow_hist) (SlotInfo 11 10 0) Finalized)). split; [|split; [crunch|split; [vm_compute; reflexivity|wanted]]].
  destruct (next_event false (ledger_at follow_hist) (OSlot (SlotInfo 11 10 0) Finalized) (ledger_at (follow_hist ++ [(follow_F, OSlot (SlotInfo 11 10 0) Finalized)]))) as [?|[? _]]; [crunch|done|done].
Qed.

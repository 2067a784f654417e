(** On an orderly stream program queries and notifications show the ledger (C90, C91). *)
From Verif Require Import Base SMap DataModel FilterModel FilterProps BincodeModel ByCommitModel ByCommitSpec ByCommitProofs
  FilterSpec StoreModel StoreSpec StoreProofs StoreSlot StoreViews StoreHist StoreEffects StoreProps OwnerSpec OwnerProofs OwnerProps
  LedgerSpec LedgerProofs LedgerInv LedgerSteps LedgerSlots LedgerFin LedgerRun LateSpec LateProofs LedgerProps.

Lemma orderly_app h1 h2 L : orderly (h1 ++ h2) L -> exists L1, orderly h1 L1.
Proof.
  revert L. induction h2 as [|x h2 IH] using rev_ind; intros L; [rewrite app_nil_r; eauto|]. rewrite app_assoc. intros H.
  inversion H as [Hn|h0 L0 F o L' Ho He Heq]; [by destruct (h1 ++ h2)|]. apply app_inj_tail in Heq as [-> _]. by eapply IH.
Qed.
Lemma orderly_last h x L : orderly (h ++ [x]) L -> exists L0, orderly h L0 /\ event L0 (snd x) L.
Proof.
  intros H. inversion H as [Hn|h0 L0 F o L' Ho He Heq]; [by destruct h|]. apply app_inj_tail in Heq as [-> <-]. by exists L0.
Qed.
Lemma regular_of h pk : steady h pk \/ closes_once h pk -> exists m, regular m h pk.
Proof. intros [H|H]; [by exists false|by exists true]. Qed.
Lemma regular_sat m h pk F o a : regular m h pk -> (F, o) ∈ h -> delivers o a -> d_pubkey a = pk -> alive a -> fl_sat F a = true.
Proof. intros Hr Hin Hd Ha Hal. destruct m; destruct Hr as [H _]; eauto. Qed.
Lemma orderly_in_time E h L : orderly h L -> (forall pk, steady h pk \/ closes_once h pk) -> loads_in_order h -> run_in_time E h.
Proof.
  intros Ho Hreg Hld h1 F o h2 st Hh Hrun. replace (h1 ++ (F, o) :: h2) with ((h1 ++ [(F, o)]) ++ h2) in Hh by (by rewrite <- app_assoc).
  subst h. pose proof Ho as Ho1. apply orderly_app in Ho1 as [L1 Ho1]. apply orderly_last in Ho1 as (L0 & Ho0 & He).
  assert (forall pk, exists m, regular m h1 pk) as Hr1.
  { intros pk. destruct (regular_of _ _ (Hreg pk)) as [m Hm]. exists m. eapply regular_prefix. by eapply regular_prefix. }
  pose proof (orderly_ok _ _ Ho0) as Hok. simpl in He. destruct He as [| | |a Hr| | | |a Hk Hc| | |]; simpl; try done.
  - intros p Hp. destruct (Hr1 (d_pubkey a)) as [m Hm]. destruct (orderly_inv m E _ h1 L0 st Ho0 Hrun Hm) as [_ Hpk]. unfold pk_inv in Hpk.
    destruct (lo_none _ Hok Hr) as (H1 & H2 & H3 & H4).
    apply version_at_inv in Hp as (i & b & Hi & Hb & Hg). rewrite Hi in Hpk. destruct Hpk as (b' & Hb' & [I1 I2 I3 I4 _ _]). rewrite Hb in Hb'. injection Hb' as <-.
    rewrite Hg in I4. destruct I4 as [[Hcp Ep] _].
    assert (p ∈ lg_base L0) as Hpb by (destruct Hcp as [?|[Hw _]]; [done|]; rewrite H2 in Hw; by apply elem_of_nil in Hw).
    right; right. change (applied_at st a Finalized) with Finalized. rewrite (version_at_entry _ _ _ _ _ Hi Hb). simpl.
    destruct (bc_fin b) as [y|]; [|destruct (I3 p); split; [by left|done]]. exists y. split; [done|]. intros _. destruct I3 as [[Hcy Ey] _].
    assert (y ∈ lg_base L0) as Hyb by (destruct Hcy as [?|[Hw _]]; [done|]; rewrite H2 in Hw; by apply elem_of_nil in Hw).
    destruct (orderly_received _ _ y Ho0) as (F' & o' & Hin & Hd); [by left|].
    apply (Hld h1 F a h2 F' o' y); [by rewrite <- app_assoc|done|done|done].
  - intros p _. right; left. unfold applied_at, slot_commit. destruct (Hr1 (d_pubkey a)) as [m Hm]. destruct (orderly_inv m E _ h1 L0 st Ho0 Hrun Hm) as [Hsv _].
    destruct (st_slots st !! d_slot a) as [ss|] eqn:Hs; simpl; [|done]. by apply (sv_open _ _ Hsv _ _ Hk Hc Hs).
Qed.

(** What a program query returns when the versions are those of the ledger. *)
Lemma queries_show E h L st F p fl c l : received_all h L ->
  (forall m pk, regular m h pk -> in_ledger L pk c (version_at st pk c) \/ (version_at st pk c = None /\ m = true /\ exists x, in_ledger L pk c (Some x) /\ ~ alive x)) ->
  run_in_time E h -> run E store_empty h = Done st -> (forall pk, steady h pk \/ closes_once h pk) ->
  owners_settle (delivered_in h) -> closed_apart (delivered_in h) -> versions_differ h -> (forall a, delivered_in h a -> honest E a) ->
  get_program_accounts E F st p fl c = Done (ROk l) ->
  NoDup (map d_pubkey l) /\
  (forall b, b ∈ l -> exists a, in_ledger L (d_pubkey b) c (Some a) /\ same_account E b a /\ d_owner b = p /\ meets E fl a) /\
  (forall a, in_ledger L (d_pubkey a) c (Some a) -> alive a -> d_owner a = p -> meets E fl a -> exists b, b ∈ l /\ same_account E b a).
Proof.
  intros Hrall Hver Hit Hrun Hreg Hset Hap Hdf Hh Hl. assert (reachable E st) as Hre by (by exists h). split; [by eapply C21_program_query_no_duplicates|]. split.
  - intros b Hb. destruct (C20_program_query_sound E F st p fl c l b Hre Hl Hb) as (a & Hv & H2 & H3 & H4). exists a. split; [|done].
    destruct (regular_of _ _ (Hreg (d_pubkey b))) as [m Hm]. destruct (Hver m _ Hm) as [H|(H & _)]; [by rewrite Hv in H|congruence].
  - intros a Ha Hal Hop Hme. destruct (regular_of _ _ (Hreg (d_pubkey a))) as [m Hm].
    assert (forall x, counts L c x -> received h x) as Hrec by (intros x Hx; apply Hrall; destruct Hx as [?|[? _]]; auto).
    assert (version_at st (d_pubkey a) c = Some a) as Hv.
    { assert (forall x, in_ledger L (d_pubkey a) c (Some x) -> x = a) as Hu.
      { intros x [[Hcx Ex] Hx]. destruct Ha as [[Hca _] Ha]. destruct (Hrec _ Hcx) as (F1 & o1 & ? & ?). destruct (Hrec _ Hca) as (F2 & o2 & ? & ?).
        assert (version_le a x /\ version_le x a) as [Hv1 Hv2] by (split; [by apply Hx|by apply Ha]). unfold version_le in *.
        apply (Hdf F1 o1 x F2 o2 a); try done; lia. }
      destruct (Hver m _ Hm) as [H|(_ & _ & x & Hx & Hd)].
      - destruct (version_at st (d_pubkey a) c) as [x|]; [by rewrite (Hu x H)|]. destruct Ha as [Ha _]. by destruct (H a).
      - by rewrite (Hu x Hx) in Hd. }
    eapply (C22_owner_changes_partial E h st F p fl c l a); try done.
    + intros F0 o a0 Hin Hd. split; [|apply Hh; by exists F0, o]. intros Hal0. destruct (regular_of _ _ (Hreg (d_pubkey a0))) as [m0 Hm0]. by eapply (regular_sat m0).
Qed.

(** C90: a program query returns exactly the accounts that the ledger has for the program. *)
Theorem C90_queries_show_ledger : forall E h L st F p fl c l,
  orderly h L -> run E store_empty h = Done st -> (forall pk, steady h pk \/ closes_once h pk) ->
  owners_settle (delivered_in h) -> closed_apart (delivered_in h) -> loads_in_order h -> versions_differ h -> (forall a, delivered_in h a -> honest E a) ->
  get_program_accounts E F st p fl c = Done (ROk l) ->
  NoDup (map d_pubkey l) /\
  (forall b, b ∈ l -> exists a, in_ledger L (d_pubkey b) c (Some a) /\ same_account E b a /\ d_owner b = p /\ meets E fl a) /\
  (forall a, in_ledger L (d_pubkey a) c (Some a) -> alive a -> d_owner a = p -> meets E fl a -> exists b, b ∈ l /\ same_account E b a).
Proof.
  intros E h L st F p fl c l Ho Hrun Hreg Hset Hap Hld Hdf Hh Hl. apply (queries_show E h L st F p fl c l); try done.
  - intros a. by apply orderly_received.
  - intros m pk Hm. by apply (pk_version m E pk h L st).
  - by eapply orderly_in_time.
Qed.
Print Assumptions C90_queries_show_ledger.

(** Deciding the conditions for a history without snapshots. *)
Lemma plain_delivered h a : plain h -> delivered_in h a -> a ∈ given h.
Proof. intros Hp (F & o & Hin & Hd). by apply (plain_in h F o Hp Hin). Qed.
Definition differb (l : list acct) : bool :=
  forallb (fun a => forallb (fun b => negb ((d_pubkey a =? d_pubkey b) && (d_slot a =? d_slot b) && (d_wv a =? d_wv b)) || bool_decide (a = b)) l) l.
Lemma differb_spec h : plain h -> differb (given h) = true -> versions_differ h.
Proof.
  intros Hp Hb F o a F' o' b Hin Hin' Hd Hd' E1 E2 E3. unfold differb in Hb. rewrite forallb_forall in Hb.
  assert (a ∈ given h) as Ha by (apply plain_delivered; [done|by exists F, o]). assert (b ∈ given h) as Hb' by (apply plain_delivered; [done|by exists F', o']).
  specialize (Hb a). rewrite forallb_forall in Hb. specialize (Hb (proj1 (elem_of_list_In _ _) Ha) b (proj1 (elem_of_list_In _ _) Hb')).
  rewrite E1, E2, E3, !N.eqb_refl in Hb. simpl in Hb. by apply bool_decide_eq_true in Hb.
Qed.
Lemma ledger_hist_query_hyps : plain ledger_hist /\ (forall pk, steady ledger_hist pk \/ closes_once ledger_hist pk).
Proof.
  assert (plain ledger_hist) as Hp by (by repeat constructor). split; [done|]. intros pk.
  destruct (decide (pk = 6)) as [->|Hne]; [right; by destruct C89_reads_show_ledger_example as (_ & _ & _ & ? & _)|left].
  apply plain_steady; [done|]. let l := eval vm_compute in (given ledger_hist) in change (given ledger_hist) with l.
  repeat apply Forall_cons_2; try apply Forall_nil_2; intros Heq; try done; simpl in Heq; by destruct Hne.
Qed.
Lemma ledger_hist_loads : loads_in_order ledger_hist.
Proof.
  intros h1 F a h2 F' o b Hh Hin Hd Hpk. assert (ledger_hist !! length h1 = Some (F, OInit a)) as Hn by (by rewrite Hh, list_lookup_middle).
    assert (take (length h1) ledger_hist = h1) as Ht by (by rewrite Hh, take_app). destruct (length h1) as [|[|n]].
    + simpl in Ht. subst h1. by apply elem_of_nil in Hin.
    + injection Hn as <- <-. rewrite <- Ht in Hin. apply elem_of_list_singleton in Hin. injection Hin as -> ->. simpl in Hd. subst b. done.
    + exfalso. assert (Forall (fun x => match snd x with OInit _ => False | _ => True end) (drop 2 ledger_hist)) as Hall by (by repeat constructor).
      rewrite Forall_lookup in Hall. apply (Hall n (F, OInit a)). by rewrite lookup_drop.
Qed.
Example C90_queries_show_ledger_example :
  orderly ledger_hist (ledger_at ledger_hist) /\ run ext_sample store_empty ledger_hist = Done (final ledger_hist) /\
  (forall pk, steady ledger_hist pk \/ closes_once ledger_hist pk) /\ owners_settle (delivered_in ledger_hist) /\ closed_apart (delivered_in ledger_hist) /\
  loads_in_order ledger_hist /\ versions_differ ledger_hist /\ (forall a, delivered_in ledger_hist a -> honest ext_sample a) /\
  get_program_accounts ext_sample admit_all (final ledger_hist) 8 None Finalized = Done (ROk [mk_acct 6 8 5 [] 11 5]) /\
  get_program_accounts ext_sample admit_all (final ledger_hist) 7 None Confirmed = Done (ROk [mk_acct 5 7 3 [] 11 3]).
Proof.
  destruct ledger_hist_query_hyps as [Hp Hreg]. split; [apply C89_reads_show_ledger_example|]. split; [crunch|]. split; [done|].
  split; [apply (settleb_spec (given ledger_hist)); [crunch|intros a; by apply plain_delivered]|].
  split; [apply (apartb_spec (given ledger_hist)); [crunch|intros a; by apply plain_delivered]|].
  split; [|split; [apply differb_spec; [done|crunch]|split; [|split; crunch]]].
  - apply ledger_hist_loads.
  - intros a Ha%plain_delivered; [|done]. assert (Forall (fun a => d_data a = DRaw []) (given ledger_hist)) as Hall.
    { let l := eval vm_compute in (given ledger_hist) in change (given ledger_hist) with l. repeat constructor. }
    rewrite Forall_forall in Hall. specialize (Hall a Ha). exists []. unfold FilterSpec.plain. rewrite Hall. done.
Qed.

(** C91: the accounts reported for a slot are exactly those whose version in the ledger changed with it. *)
Lemma vers_counts pk L c a : counts L c a -> d_pubkey a = pk -> vers pk L a.
Proof. intros [?|[? _]] ?; split; auto. Qed.
Lemma tracked_version m E pk h L st c : mixed h L -> run E store_empty h = Done st -> regular m h pk -> tracked st pk -> in_ledger L pk c (version_at st pk c).
Proof.
  intros Ho Hrun Hm [i Hi]. destruct (mixed_inv m E pk h L st Ho Hrun Hm) as [_ Hpk]. unfold pk_inv in Hpk. rewrite Hi in Hpk.
  destruct Hpk as (b & Hb & [I1 I2 I3 I4 _ _]). rewrite (version_at_entry _ _ _ _ _ Hi Hb). destruct c; done.
Qed.
Lemma slot_event_writes L si c L' : event L (OSlot si c) L' -> lg_base L' = lg_base L /\ lg_writes L' = lg_writes L /\
  (c = Processed -> lg_conf L' = lg_conf L /\ lg_fin L' = lg_fin L).
Proof. inversion 1; subst; simpl; done. Qed.
Lemma report_genuine F st si c st' out a i b : st_ok st -> process_slot F st si c = Done (st', out) -> a ∈ out -> st_index st !! d_pubkey a = Some i -> st_accounts st !! i = Some b ->
  sm_get (d_slot a) (bc_proc b) = Some a /\ c <> Processed.
Proof.
  intros Hok H Hin Hi Hb. destruct (process_slot_spec F st si c Hok) as (st1 & sl & wa & H1 & _). rewrite H1 in H. injection H as <- <-.
  apply reports_in in Hin as (j & s & b' & _ & Hb' & Hr). destruct (report_entry _ _ _ _ _ _ _ Hok Hb' Hr) as (Hj & <- & Hc).
  rewrite Hi in Hj. injection Hj as <-. rewrite Hb in Hb'. injection Hb' as <-. split; [|done]. apply report_prom in Hr as [prev Hr]. by apply promote_report_in in Hr as (Hg & _).
Qed.
Lemma dropped_report F st si c st' out pk : st_ok st -> process_slot F st si c = Done (st', out) -> tracked st pk -> ~ tracked st' pk -> exists a, a ∈ out /\ d_pubkey a = pk.
Proof.
  intros Hok H [i Hi] Hn. destruct (process_slot_spec F st si c Hok) as (st1 & sl & wa & H1 & _ & _ & Hse). rewrite H1 in H. injection H as <- <-.
  destruct (so_entry _ _ _ Hok Hi) as (b & Hb & Hbc & Hall & _). pose proof (slot_version F st si c wa st1 pk i b Hok Hse Hi Hb) as Hv.
  destruct (wa !! i) as [s|] eqn:Hw; [|destruct Hv as [Hv _]; destruct Hn; by exists i].
  destruct (prom_after F b s c) as [[b' del] rep] eqn:Hp. destruct Hv as [Hv1 _]. destruct del; [|destruct Hn; by exists i].
  destruct (prom_after_drop _ _ _ _ _ _ Hp) as (_ & a' & prev & Hr & -> & _). exists a'. split.
  - apply reports_in. exists i, s, b. split; [by apply elem_of_map_to_list|]. split; [done|]. by rewrite Hp.
  - apply promote_report_in in Hr as (Hg & _). destruct Hall as [Hall _]. by eapply Hall.
Qed.
Lemma notifications_show : forall E h L F si c L' st st' out,
  mixed h L -> event L (OSlot si c) L' -> run E store_empty h = Done st -> process_slot F st si c = Done (st', out) ->
  NoDup (map d_pubkey out) /\
  (forall a, a ∈ out -> steady (h ++ [(F, OSlot si c)]) (d_pubkey a) \/ closes_once (h ++ [(F, OSlot si c)]) (d_pubkey a) ->
     in_ledger L' (d_pubkey a) c (Some a) /\ forall x, counts L c x -> d_pubkey x = d_pubkey a -> d_slot x < d_slot a) /\
  (forall a, steady (h ++ [(F, OSlot si c)]) (d_pubkey a) \/ closes_once (h ++ [(F, OSlot si c)]) (d_pubkey a) ->
     in_ledger L' (d_pubkey a) c (Some a) -> ~ counts L c a -> (exists x, counts L' Processed x /\ d_pubkey x = d_pubkey a /\ alive x) ->
     exists b, b ∈ out /\ d_pubkey b = d_pubkey a /\ d_slot b = d_slot a /\ d_wv b = d_wv a).
Proof.
  intros E h L F si c L' st st' out Ho He Hrun Hps. set (h' := h ++ [(F, OSlot si c)]).
  assert (st_ok st) as Hok by (eapply run_ok; [apply st_ok_empty|done]). destruct (slot_reports F st si c st' out Hok Hps) as (Hnd & Hrep & Hchg).
  assert (mixed h' L') as Ho' by (econstructor; [done|by constructor]). assert (run E store_empty h' = Done st') as Hrun'.
  { unfold h'. rewrite run_app, Hrun. simpl. by rewrite Hps. }
  destruct (slot_event_writes _ _ _ _ He) as (Eb & Ew & Ep). pose proof (mixed_ok _ _ Ho') as HL'.
  assert (forall pk x, vers pk L x <-> vers pk L' x) as Hvers by (intros pk x; unfold vers; by rewrite Eb, Ew).
  split; [done|]. split.
  - intros a Hin Hr. destruct (regular_of _ _ Hr) as [m Hm]. pose proof (regular_prefix _ _ _ _ Hm) as Hm0. destruct (Hrep a Hin) as (Htr & Hv & Hlt).
    pose proof (tracked_version m E _ h L st c Ho Hrun Hm0 Htr) as Hold. split.
    + destruct Hv as [Hv|(Hnt & -> & Hcl)].
      * rewrite <- Hv. eapply tracked_version; [exact Ho'|exact Hrun'|exact Hm|]. apply version_at_inv in Hv as (j & ? & ? & _). by exists j.
      * destruct (mixed_inv m E _ h' L' st' Ho' Hrun' Hm) as [_ Hpk]. unfold pk_inv in Hpk. destruct (st_index st' !! d_pubkey a) as [j|] eqn:Hj; [destruct Hnt; by exists j|].
        destruct Htr as [i Hi]. destruct (mixed_inv m E _ h L st Ho Hrun Hm0) as [_ Hpk0]. unfold pk_inv in Hpk0. rewrite Hi in Hpk0. destruct Hpk0 as (b & Hb & Hei).
        destruct (report_genuine F st si Finalized st' out a i b Hok Hps Hin Hi Hb) as [Hg _].
        assert (vers (d_pubkey a) L' a) as Hva by (apply Hvers; split; [|done]; exact (proj1 (ei_all _ _ _ _ _ Hei) _ _ Hg)).
        pose proof (mixed_tame m h' (d_pubkey a) L' F (OSlot si Finalized) Hm Ho') as Ht. specialize (Ht ltac:(set_solver)).
        destruct Hpk as [Hno|(-> & x & Hx & Hxd & Hxn & Hor)]; [by destruct (Hno a)|].
        destruct Ht as [Ht1 Ht2]. assert (~ alive a) as Hda by (destruct Hcl as [?|Hcl]; [done|intros Hal; rewrite (Ht1 a Hva Hal) in Hcl; done]).
        assert (a = x) as <-.
        { destruct (Hxn a Hva) as [?|Hle]; [done|]. destruct (Ht2 a Hva) as [?|Ha]; [done|]. destruct (Ha x Hx) as [?|Hle']; [done|]. unfold version_le in *. lia. }
        assert (counts L' Finalized a) as Hca.
        { destruct Hor as [Hone|?]; [|done].
          (* the replaced finalized version is another one *)
          destruct (version_at st (d_pubkey a) Finalized) as [y|] eqn:Hy.
          - pose proof (Hlt y eq_refl) as Hs. destruct Hold as [[Hcy Ey] _]. assert (y = a) as -> by (apply Hone, Hvers; by eapply vers_counts). lia.
          - exfalso. destruct (process_slot_spec F st si Finalized Hok) as (st1 & sl & wa & H1 & _ & _ & Hse). rewrite H1 in Hps. injection Hps as <- <-.
            pose proof (slot_version F st si Finalized wa st1 _ i b Hok Hse Hi Hb) as Hsv. destruct (wa !! i) as [s|]; [|destruct Hsv; congruence].
            destruct (prom_after F b s Finalized) as [[b' del] rep] eqn:Hp. destruct Hsv as [Hsv _]. destruct del; [|congruence].
            destruct (prom_after_drop _ _ _ _ _ _ Hp) as (_ & a' & prev & Hr' & _ & _). rewrite (version_at_entry _ _ _ _ _ Hi Hb) in Hy.
            rewrite bc_promote_report in Hr'. destruct (sm_get s (bc_proc b)); [|done]. rewrite Hy in Hr'. done. }
        split; [done|]. intros y [Hy Ey]. destruct (Hxn y (vers_counts _ _ _ _ Hy Ey)) as [->|Hle]; [apply version_le_refl|]. unfold version_le in *. lia.
    + intros x Hx Ex. destruct (version_at st (d_pubkey a) c) as [v|]; [|by destruct (Hold x)]. pose proof (Hlt v eq_refl). destruct Hold as [_ Hold].
      pose proof (Hold x (conj Hx Ex)). unfold version_le in *. lia.
  - intros a Hr Ha Hnc (x0 & Hx0 & Ex0 & Hal0). destruct (regular_of _ _ Hr) as [m Hm]. pose proof (regular_prefix _ _ _ _ Hm) as Hm0.
    assert (vers (d_pubkey a) L' a) as Hva by (destruct Ha as [[? ?] _]; by eapply vers_counts).
    assert (vers (d_pubkey a) L' x0) as Hv0 by (by eapply vers_counts).
    destruct (mixed_version m E _ h' L' st' c Ho' Hrun' Hm) as [Hv|(Hv & -> & x & Hx & Hxd)].
    + destruct (version_at st' (d_pubkey a) c) as [v|] eqn:Hv'; [|destruct Ha as [Ha _]; by destruct (Hv a)].
      assert (d_slot v = d_slot a /\ d_wv v = d_wv a) as [Es Ewv].
      { destruct Ha as [Ha1 Ha2], Hv as [Hv1 Hv2]. pose proof (Ha2 v Hv1). pose proof (Hv2 a Ha1). unfold version_le in *. lia. }
      assert (tracked st' (d_pubkey a)) as Htr' by (apply version_at_inv in Hv' as (j & ? & ? & _); by exists j).
      destruct (decide (version_at st (d_pubkey a) c = Some v)) as [Heq|Hne].
      * exfalso. apply Hnc. assert (tracked st (d_pubkey a)) as Htr by (apply version_at_inv in Heq as (j & ? & ? & _); by exists j).
        pose proof (tracked_version m E _ h L st c Ho Hrun Hm0 Htr) as Hold. rewrite Heq in Hold. destruct Hold as [[Hcv Ev] _].
        destruct Ha as [[Hca _] _]. destruct Hca as [Hca|[Hca Hcc]]; [left; by rewrite <- Eb|]. rewrite Ew in Hca. right. split; [done|].
        destruct Hcv as [Hcv|[_ Hcv]]; [|by rewrite Es in Hcv]. exfalso. pose proof (mixed_ok _ _ Ho) as HL. pose proof (lo_writes _ HL _ Hca) as Hk.
        destruct (known_root _ _ HL Hk) as [r Hrt]. pose proof (lo_base _ HL _ _ Hcv Hrt). pose proof (lo_min _ HL _ _ Hk Hrt). lia.
      * destruct (Hchg (d_pubkey a)) as (b & Hb & Eb' & Hb'); [by rewrite Hv'; intros Heq; apply Hne|]. exists b. split; [done|]. split; [done|].
        destruct Hb' as [Hb'|Hb']; [|done]. rewrite Hv' in Hb'. injection Hb' as <-. done.
    + pose proof (mixed_tame true h' (d_pubkey a) L' F (OSlot si c) Hm Ho') as Ht. specialize (Ht ltac:(set_solver)). destruct Ht as [Ht1 Ht2].
      assert (vers (d_pubkey a) L' x) as Hvx by (destruct Hx as [[? ?] _]; by eapply vers_counts).
      assert (forall y, vers (d_pubkey a) L' y -> ~ alive y -> y = x) as Huniq.
      { intros y Hy Hd. destruct (Ht2 x Hvx) as [?|H1]; [done|]. destruct (Ht2 y Hy) as [?|H2]; [done|]. destruct (H1 y Hy) as [?|H1']; [done|]. destruct (H2 x Hvx) as [?|H2']; [done|].
        unfold version_le in *. lia. }
      assert (a = x) as Hax.
      { destruct (Ht2 x Hvx) as [?|H1]; [done|]. destruct (H1 a Hva) as [?|H2]; [done|]. destruct Ha as [_ Ha], Hx as [Hx1 _]. by destruct H2; apply Ha. }
      assert (~ tracked st' (d_pubkey a)) as Hnt'.
      { intros Htr. pose proof (tracked_version true E _ h' L' st' c Ho' Hrun' Hm Htr) as H. rewrite Hv in H. destruct Hx as [Hx _]. by destruct (H x). }
      destruct (decide (is_Some (st_index st !! d_pubkey a))) as [Htr|Hnt].
      * destruct (dropped_report F st si c st' out _ Hok Hps Htr Hnt') as (b & Hb & Eb'). exists b. split; [done|]. split; [done|].
        destruct (Hrep b Hb) as (_ & Hvb & _). destruct Hvb as [Hvb|(_ & _ & Hcl)].
        { rewrite Eb', Hv in Hvb. done. }
        destruct Htr as [i Hi]. destruct (mixed_inv true E _ h L st Ho Hrun Hm0) as [_ Hpk0]. unfold pk_inv in Hpk0. rewrite Hi in Hpk0. destruct Hpk0 as (e & He' & Hei).
        rewrite <- Eb' in Hi. destruct (report_genuine F st si c st' out b i e Hok Hps Hb Hi He') as [Hg _].
        assert (vers (d_pubkey a) L' b) as Hvb by (apply Hvers; split; [|done]; exact (proj1 (ei_all _ _ _ _ _ Hei) _ _ Hg)).
        rewrite (Huniq b Hvb); [by rewrite Hax|]. destruct Hcl as [?|Hcl]; [done|]. intros Hal. rewrite (Ht1 b Hvb Hal) in Hcl. done.
      * exfalso. destruct (mixed_inv true E _ h L st Ho Hrun Hm0) as [_ Hpk0]. unfold pk_inv in Hpk0.
        destruct (st_index st !! d_pubkey a) as [i|] eqn:Hi; [destruct Hnt; by exists i|].
        destruct Hpk0 as [Hno|(_ & y & Hy & Hyd & _ & Hor)]; [destruct (Hno a); by apply Hvers|].
        assert (y = x) as -> by (apply Huniq; [by apply Hvers|done]). destruct Hor as [Hone|Hfin].
        -- assert (x0 = x) as -> by (apply Hone; by apply Hvers). done.
        -- apply Hnc. rewrite Hax. destruct Hfin as [?|[Hw Hf]]; [by left|right]. split; [done|]. destruct c; [done| |done].
           destruct Hf as (t & Hf & Hb). eapply committed_branch; [|exact Hb]. apply (lo_fin _ (mixed_ok _ _ Ho) _ Hf).
Qed.
Theorem C91_notifications_show_ledger : forall E h L F si c L' st st' out,
  orderly h L -> event L (OSlot si c) L' -> run E store_empty h = Done st -> process_slot F st si c = Done (st', out) ->
  NoDup (map d_pubkey out) /\
  (forall a, a ∈ out -> steady (h ++ [(F, OSlot si c)]) (d_pubkey a) \/ closes_once (h ++ [(F, OSlot si c)]) (d_pubkey a) ->
     in_ledger L' (d_pubkey a) c (Some a) /\ forall x, counts L c x -> d_pubkey x = d_pubkey a -> d_slot x < d_slot a) /\
  (forall a, steady (h ++ [(F, OSlot si c)]) (d_pubkey a) \/ closes_once (h ++ [(F, OSlot si c)]) (d_pubkey a) ->
     in_ledger L' (d_pubkey a) c (Some a) -> ~ counts L c a -> (exists x, counts L' Processed x /\ d_pubkey x = d_pubkey a /\ alive x) ->
     exists b, b ∈ out /\ d_pubkey b = d_pubkey a /\ d_slot b = d_slot a /\ d_wv b = d_wv a).
Proof. intros E h L F si c L' st st' out Ho. apply notifications_show. by apply orderly_mixed. Qed.
Print Assumptions C91_notifications_show_ledger.
Definition note_hist : list (filt * op) := take 12 ledger_hist.
Example C91_notifications_show_ledger_example : exists out,
  orderly note_hist (ledger_at note_hist) /\ event (ledger_at note_hist) (OSlot (SlotInfo 11 10 0) Finalized) (ledger_at (take 13 ledger_hist)) /\
  run ext_sample store_empty note_hist = Done (final note_hist) /\ process_slot admit_all (final note_hist) (SlotInfo 11 10 0) Finalized = Done (final (take 13 ledger_hist), out) /\
  out ≡ₚ [mk_acct 5 7 3 [] 11 3; mk_acct 6 8 5 [] 11 5] /\
  steady (note_hist ++ [(admit_all, OSlot (SlotInfo 11 10 0) Finalized)]) 5 /\ in_ledger (ledger_at (take 13 ledger_hist)) 5 Finalized (Some (mk_acct 5 7 3 [] 11 3)) /\
  ~ counts (ledger_at note_hist) Finalized (mk_acct 5 7 3 [] 11 3).
Proof.
  assert (event (ledger_at note_hist) (OSlot (SlotInfo 11 10 0) Finalized) (ledger_at (take 13 ledger_hist))) as He.
  { destruct (next_event false (ledger_at note_hist) (OSlot (SlotInfo 11 10 0) Finalized) (ledger_at (take 13 ledger_hist))) as [?|[? _]]; [crunch|done|done]. }
  assert (orderly note_hist (ledger_at note_hist)) as Ho by (apply ledger_of_orderly; crunch).
  assert (steady (take 13 ledger_hist) 5) as Hs.
  { apply plain_steady; [by repeat constructor|]. let l := eval vm_compute in (given (take 13 ledger_hist)) in change (given (take 13 ledger_hist)) with l. repeat constructor; done. }
  exists (result_of [] (process_slot admit_all (final note_hist) (SlotInfo 11 10 0) Finalized)).
  split; [done|]. split; [done|]. split; [crunch|]. split; [crunch|]. split; [vm_compute; reflexivity|]. split; [exact Hs|]. split.
  - destruct (C89_reads_show_ledger ext_sample (take 13 ledger_hist) (ledger_at (take 13 ledger_hist)) (final (take 13 ledger_hist)) 5 Finalized) as (o & H1 & H2);
      [apply ledger_of_orderly; crunch|crunch|by left|].
    assert (get_account (final (take 13 ledger_hist)) 5 Finalized = Done (ROk (Some (mk_acct 5 7 3 [] 11 3)))) as H3 by crunch. rewrite H3 in H2.
    destruct o as [x|]; [|by injection H2]. clear H3. destruct (0 <? d_lamports x); [|done]. injection H2 as ->. exact H1.
  - intros [H|(_ & t & Ht & _)]; [|vm_compute in Ht; done]. assert (lg_base (ledger_at note_hist) = [mk_acct 5 7 1 [] 8 1; mk_acct 6 7 1 [] 7 1]) as Hb by crunch.
    rewrite Hb, !elem_of_cons, elem_of_nil in H. clear He Ho Hs Hb. destruct H as [H|[H|[]]]; apply (f_equal d_slot) in H; vm_compute in H; discriminate H.
Qed.

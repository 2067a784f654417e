(** Updates that the filters refuse can be left out of a history (for C99). *)
From Verif Require Import Base SMap DataModel FilterModel FilterProps BincodeModel ByCommitModel ByCommitSpec ByCommitProofs
  FilterSpec StoreModel StoreSpec StoreProofs StoreSlot StoreViews StoreHist StoreEffects StoreProps OwnerSpec OwnerProofs OwnerProps
  LedgerSpec LedgerProofs LedgerInv LedgerSteps LedgerSlots LedgerFin LedgerRun LedgerProps LedgerQueryProps LedgerFilterSpec.

Lemma given_app h1 h2 : given (h1 ++ h2) = given h1 ++ given h2.
Proof. apply omap_app. Qed.
Lemma given_delivers h a : (forall F o, (F, o) ∈ h -> match o with OLoad _ _ => False | _ => True end) -> a ∈ given h <-> received h a.
Proof.
  intros Hn. unfold given, received. rewrite elem_of_list_omap. split.
  - intros ([F o] & Hin & Hg). exists F, o. split; [done|]. unfold given1 in Hg. destruct o; simpl in *; congruence.
  - intros (F & o & Hin & Hd). exists (F, o). split; [done|]. specialize (Hn _ _ Hin). unfold given1. destruct o; simpl in *; try done; congruence.
Qed.

Section keep.
Context (sat : acct -> bool).
(** Some version of the account of [x] delivered up to [x] is wanted. *)
Definition keptb (pre : list (filt * op)) (x : filt * op) : bool :=
  match given1 x with
  | None => true
  | Some a => existsb (fun b => sat b && (d_pubkey b =? d_pubkey a)) (given (pre ++ [x]))
  end.
Fixpoint keep (pre h : list (filt * op)) : list (filt * op) :=
  match h with [] => [] | x :: h' => (if keptb pre x then [x] else []) ++ keep (pre ++ [x]) h' end.

Lemma keptb_spec pre x a : given1 x = Some a -> keptb pre x = true <-> exists b, b ∈ given (pre ++ [x]) /\ sat b = true /\ d_pubkey b = d_pubkey a.
Proof.
  intros Hx. unfold keptb. rewrite Hx, existsb_exists. split.
  - intros (b & Hb & H). apply andb_true_iff in H as [H1 H2%N.eqb_eq]. exists b. split; [by apply elem_of_list_In|done].
  - intros (b & Hb & H1 & H2). exists b. split; [by apply elem_of_list_In|]. by rewrite H1, H2, N.eqb_refl.
Qed.
Lemma keep_app pre h1 h2 : keep pre (h1 ++ h2) = keep pre h1 ++ keep (pre ++ h1) h2.
Proof.
  revert pre. induction h1 as [|x h1 IH]; intros pre; simpl; [by rewrite app_nil_r|]. rewrite IH, <- !app_assoc. done.
Qed.
Lemma keep_in pre h x : x ∈ keep pre h -> exists k1 k2, h = k1 ++ x :: k2 /\ keptb (pre ++ k1) x = true.
Proof.
  revert pre. induction h as [|y h IH]; intros pre; simpl; [intros H; by apply elem_of_nil in H|]. intros [H|H]%elem_of_app.
  - destruct (keptb pre y) eqn:Hk; [|by apply elem_of_nil in H]. apply elem_of_list_singleton in H as ->. exists [], h. by rewrite app_nil_r.
  - apply IH in H as (k1 & k2 & -> & Hk). exists (y :: k1), k2. split; [done|]. by rewrite <- app_assoc in Hk.
Qed.
Lemma keep_sub pre h x : x ∈ keep pre h -> x ∈ h.
Proof. intros (k1 & k2 & -> & _)%keep_in. set_solver. Qed.
Lemma keep_split pre h g1 x g2 : keep pre h = g1 ++ x :: g2 -> exists k1 k2, h = k1 ++ x :: k2 /\ keptb (pre ++ k1) x = true /\ g1 = keep pre k1 /\ g2 = keep (pre ++ k1 ++ [x]) k2.
Proof.
  revert pre g1. induction h as [|y h IH]; intros pre g1; simpl; [by destruct g1|]. destruct (keptb pre y) eqn:Hk; simpl.
  - destruct g1 as [|z g1]; simpl; intros H; [injection H as <- <-; exists [], h; rewrite app_nil_r; split_and!; done|].
    injection H as <- H. apply IH in H as (k1 & k2 & -> & H1 & -> & ->). exists (y :: k1), k2. rewrite <- !app_assoc in *. simpl. rewrite Hk. split_and!; done.
  - intros H. apply IH in H as (k1 & k2 & -> & H1 & -> & ->). exists (y :: k1), k2. rewrite <- !app_assoc in *. simpl. rewrite Hk. split_and!; done.
Qed.

(** No snapshot is loaded and every call finds filters that want [sat]. *)
Definition loadless (h : list (filt * op)) : Prop := forall F o, (F, o) ∈ h -> fl_sat F = sat /\ match o with OLoad _ _ => False | _ => True end.
Lemma loadless_app h1 h2 : loadless (h1 ++ h2) <-> loadless h1 /\ loadless h2.
Proof. unfold loadless. split; [intros H; split; intros F o Hin; apply H; set_solver|]. intros [H1 H2] F o [Hin|Hin]%elem_of_app; eauto. Qed.
Lemma keep_run E h st : loadless h -> run E store_empty h = Done st ->
  run E store_empty (keep [] h) = Done st /\ forall pk, tracked st pk -> exists b, b ∈ given h /\ sat b = true /\ d_pubkey b = pk.
Proof.
  revert st. induction h as [|[F o] h IH] using rev_ind; intros st Hl Hrun.
  { simpl in *. split; [done|]. injection Hrun as <-. intros pk [i Hi]. done. }
  apply loadless_app in Hl as [Hl Hx]. destruct (Hx F o) as [HF Ho]; [set_solver|]. rewrite run_app in Hrun. destruct (run E store_empty h) as [st0|] eqn:Hr; [|done].
  destruct (IH st0 Hl eq_refl) as [IH1 IH2]. assert (st_ok st0) as Hok by (eapply run_ok; [apply st_ok_empty|done]).
  assert (forall pk, tracked st0 pk -> exists b, b ∈ given (h ++ [(F, o)]) /\ sat b = true /\ d_pubkey b = pk) as IH2'.
  { intros pk Ht. destruct (IH2 pk Ht) as (b & Hb & ?). exists b. split; [|done]. rewrite given_app. set_solver. }
  rewrite keep_app. simpl keep. rewrite app_nil_r, run_app, IH1. simpl app.
  assert (forall a c st1 r, given1 (F, o) = Some a -> update_account F st0 a c = Done (st1, r) ->
    (keptb h (F, o) = false -> st1 = st0) /\ forall pk, tracked st1 pk -> exists b, b ∈ given (h ++ [(F, o)]) /\ sat b = true /\ d_pubkey b = pk) as Hupd.
  { intros a c st1 r Hg Hu. destruct (keptb h (F, o)) eqn:Hk.
    - split; [done|]. intros pk Ht. destruct (decide (pk = d_pubkey a)) as [->|Hne]; [by apply (keptb_spec h (F, o) a)|].
      apply IH2'. by apply (update_tracked_other F st0 a c st1 r pk Hok Hu Hne).
    - assert (~ exists b, b ∈ given (h ++ [(F, o)]) /\ sat b = true /\ d_pubkey b = d_pubkey a) as Hn by (intros Hb; apply (keptb_spec h (F, o) a Hg) in Hb; congruence).
      assert (sat a = false) as Hs.
      { destruct (sat a) eqn:Hs; [|done]. destruct Hn. exists a. split_and!; try done. rewrite given_app. apply elem_of_app. right. apply elem_of_list_omap. exists (F, o). set_solver. }
      assert (~ tracked st0 (d_pubkey a)) as Ht by (intros Ht; by apply Hn, IH2').
      rewrite update_refused in Hu; [|apply eq_None_not_Some; exact Ht|by rewrite HF]. injection Hu as <- _. split; [done|]. exact IH2'. }
  destruct o as [a c|a|pk c|p fl c|si c|p|p b]; simpl in Hrun; try done.
  - destruct (update_account F st0 a c) as [[st1 r]|] eqn:Hu; [|done]. injection Hrun as ->. destruct (Hupd a c st r eq_refl Hu) as [Hs Ht]. split; [|exact Ht].
    destruct (keptb h (F, OUpdate a c)); simpl; [by rewrite Hu|]. by rewrite Hs.
  - unfold init_account in Hrun. destruct (update_account F st0 a Finalized) as [[st1 r]|] eqn:Hu; [|done]. injection Hrun as ->. destruct (Hupd a Finalized st r eq_refl Hu) as [Hs Ht].
    split; [|exact Ht]. destruct (keptb h (F, OInit a)); simpl; [unfold init_account; by rewrite Hu|]. by rewrite Hs.
  - destruct (get_account st0 pk c) eqn:Hq; [|done]. injection Hrun as ->. split; [|exact IH2']. unfold keptb. simpl. by rewrite Hq.
  - destruct (get_program_accounts E F st0 p fl c) eqn:Hq; [|done]. injection Hrun as ->. split; [|exact IH2']. unfold keptb. simpl. by rewrite Hq.
  - destruct (process_slot F st0 si c) as [[st1 out]|] eqn:Hq; [|done]. injection Hrun as ->. unfold keptb. simpl. rewrite Hq. split; [done|].
    intros pk Ht. apply IH2'. destruct (decide (is_Some (st_index st0 !! pk))) as [?|Hn]; [done|]. by destruct (slot_untracked F st0 si c st out pk Hok Hq Hn).
  - destruct (create_snapshot E F st0 p) eqn:Hq; [|done]. injection Hrun as ->. split; [|exact IH2']. unfold keptb. simpl. by rewrite Hq.
Qed.

(** ** The ledger of the calls that are kept *)
Definition loads (h : list (filt * op)) : list acct := omap (fun x => match snd x with OInit a => Some a | _ => None end) h.
Definition writes (h : list (filt * op)) : list acct := omap (fun x => match snd x with OUpdate a _ => Some a | _ => None end) h.
Definition kept_ledger (L : ledger) (h : list (filt * op)) : ledger :=
  Ledger (loads (keep [] h)) (lg_root L) (lg_parent L) (writes (keep [] h)) (lg_conf L) (lg_fin L).
Lemma orderly_lists h L : orderly h L -> lg_base L = loads h /\ lg_writes L = writes h.
Proof.
  induction 1 as [|h L F o L' Ho [IH1 IH2] He]; [done|]. unfold loads, writes in *. rewrite !omap_app, <- IH1, <- IH2.
  destruct He; simpl; rewrite ?app_nil_r; done.
Qed.
Lemma loads_in h a : a ∈ loads h <-> exists F, (F, OInit a) ∈ h.
Proof.
  unfold loads. rewrite elem_of_list_omap. split.
  - intros ([F o] & Hin & H). destruct o; simpl in H; try done. injection H as <-. by exists F.
  - intros [F H]. by exists (F, OInit a).
Qed.
Lemma writes_in h a : a ∈ writes h <-> exists F c, (F, OUpdate a c) ∈ h.
Proof.
  unfold writes. rewrite elem_of_list_omap. split.
  - intros ([F o] & Hin & H). destruct o; simpl in H; try done. injection H as <-. by eexists _, _.
  - intros (F & c & H). by exists (F, OUpdate a c).
Qed.
Lemma loads_keep h a : a ∈ loads (keep [] h) -> a ∈ loads h.
Proof. rewrite !loads_in. intros [F H]. exists F. by eapply keep_sub. Qed.
Lemma writes_keep h a : a ∈ writes (keep [] h) -> a ∈ writes h.
Proof. rewrite !writes_in. intros (F & c & H). exists F, c. by eapply keep_sub. Qed.
Lemma kept_orderly h L : orderly h L -> orderly (keep [] h) (kept_ledger L h).
Proof.
  induction 1 as [|h L F o L' Ho IH He]; [apply od_nil|]. rewrite keep_app. simpl keep. rewrite app_nil_r.
  destruct (orderly_lists _ _ Ho) as [Eb Ew]. unfold kept_ledger in *. rewrite keep_app. simpl keep. rewrite app_nil_r.
  unfold loads, writes in *. rewrite !omap_app.
  destruct (keptb h (F, o)) eqn:Hk; [econstructor; [exact IH|]|]; destruct He; simpl in *; rewrite ?app_nil_r; try done; try (by constructor).
  - match goal with |- event ?L0 _ _ => refine (ev_root L0 si _ _ _) end; simpl; [done|done|]. intros b Hb. apply H1. rewrite Eb. by apply loads_keep.
  - by rewrite H in IH.
Qed.
Lemma kept_counts L h c a : orderly h L -> counts (kept_ledger L h) c a -> counts L c a.
Proof.
  intros Ho. destruct (orderly_lists _ _ Ho) as [Eb Ew]. unfold counts. rewrite Eb, Ew. simpl. intros [H|[H Hc]]; [left; by apply loads_keep|right]. split; [by apply writes_keep|done].
Qed.
(** A version that counts is kept, or it is unwanted and comes before every wanted version of its account. *)
Lemma counts_kept L h c a : orderly h L -> counts L c a ->
  (exists x k1 k2, h = k1 ++ x :: k2 /\ given1 x = Some a /\ keptb k1 x = false) \/ counts (kept_ledger L h) c a.
Proof.
  intros Ho. destruct (orderly_lists _ _ Ho) as [Eb Ew].
  assert (forall x, x ∈ h -> (exists k1 k2, h = k1 ++ x :: k2 /\ keptb k1 x = false) \/ x ∈ keep [] h) as Hx.
  { intros x (k1 & k2 & ->)%elem_of_list_split. destruct (keptb k1 x) eqn:Hk; [right|left; eauto]. rewrite keep_app. apply elem_of_app. right. simpl. rewrite Hk. set_solver. }
  unfold counts. rewrite Eb, Ew. simpl. intros [H|[H Hc]].
  - apply loads_in in H as [F H]. destruct (Hx _ H) as [(k1 & k2 & Hh & Hk)|Hk]; [left; exists (F, OInit a), k1, k2; done|]. right. left. apply loads_in. by exists F.
  - apply writes_in in H as (F & cc & H). destruct (Hx _ H) as [(k1 & k2 & Hh & Hk)|Hk]; [left; exists (F, OUpdate a cc), k1, k2; done|]. right. right. split; [|done].
    apply writes_in. by exists F, cc.
Qed.
Lemma wanted_kept L h c a : orderly h L -> counts L c a -> sat a = true -> counts (kept_ledger L h) c a.
Proof.
  intros Ho Hc Hs. destruct (counts_kept _ _ _ _ Ho Hc) as [(x & k1 & k2 & _ & Hg & Hk)|?]; [|done]. exfalso.
  assert (keptb k1 x = true); [|congruence]. apply (keptb_spec k1 x a Hg). exists a. split; [|done]. rewrite given_app. apply elem_of_app. right. apply elem_of_list_omap. exists x. set_solver.
Qed.
Lemma orderly_loadless h L : orderly h L -> (forall F o, (F, o) ∈ h -> fl_sat F = sat) -> loadless h.
Proof.
  intros Ho HF F o Hin. split; [by eapply HF|]. induction Ho as [|h L F' o' L' Ho IH He]; [by apply elem_of_nil in Hin|].
  apply elem_of_app in Hin as [Hin|Hin]; [apply IH; [|done]; intros F0 o0 H0; apply (HF F0 o0); set_solver|]. apply elem_of_list_singleton in Hin. injection Hin as <- <-. by destruct He.
Qed.
End keep.

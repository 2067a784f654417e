(** Accounts loaded while the stream is running: the store still shows the ledger (C102). *)
From Verif Require Import Base SMap DataModel FilterModel FilterProps BincodeModel ByCommitModel ByCommitSpec ByCommitProofs
  FilterSpec StoreModel StoreSpec StoreProofs StoreSlot StoreViews StoreHist StoreProps OwnerSpec OwnerProofs OwnerProps
  LedgerSpec LedgerProofs LedgerInv LedgerSteps LedgerSlots LedgerFin LedgerRun LateSpec LateProofs LedgerProps LedgerQueryProps.

(** C102: reads. *)
Theorem C102_late_loads_reads_show_ledger : forall E h L st pk c,
  mixed h L -> run E store_empty h = Done st -> steady h pk \/ closes_once h pk ->
  exists o, in_ledger L pk c o /\
    get_account st pk c = Done (ROk (match o with Some a => if 0 <? d_lamports a then Some a else None | None => None end)).
Proof.
  intros E h L st pk c Ho Hrun Hreg. assert (st_ok st) as Hst by (eapply run_ok; [apply st_ok_empty|done]). rewrite get_account_total by done.
  destruct (regular_of _ _ Hreg) as [m Hm].
  destruct (mixed_version m E pk h L st c Ho Hrun Hm) as [Hv|(Hv & _ & x & Hx & Hd)].
  - exists (version_at st pk c). split; [done|]. by destruct (version_at st pk c).
  - exists (Some x). split; [done|]. rewrite Hv. simpl. destruct (N.ltb_spec 0 (d_lamports x)); done.
Qed.
Print Assumptions C102_late_loads_reads_show_ledger.

Lemma mixed_app h1 h2 L : mixed (h1 ++ h2) L -> exists L1, mixed h1 L1.
Proof.
  revert L. induction h2 as [|x h2 IH] using rev_ind; intros L; [rewrite app_nil_r; eauto|]. rewrite app_assoc. intros H.
  inversion H as [Hn|h0 L0 F o L' Ho He Heq]; [by destruct (h1 ++ h2)|]. apply app_inj_tail in Heq as [-> _]. by eapply IH.
Qed.
Lemma mixed_last h x L : mixed (h ++ [x]) L -> exists L0, mixed h L0 /\ late_event L0 (snd x) L.
Proof.
  intros H. inversion H as [Hn|h0 L0 F o L' Ho He Heq]; [by destruct h|]. apply app_inj_tail in Heq as [-> <-]. by exists L0.
Qed.
Lemma mixed_in_time E h L : mixed h L -> (forall pk, steady h pk \/ closes_once h pk) -> loads_in_order h -> run_in_time E h.
Proof.
  intros Ho Hreg Hld h1 F o h2 st Hh Hrun. replace (h1 ++ (F, o) :: h2) with ((h1 ++ [(F, o)]) ++ h2) in Hh by (by rewrite <- app_assoc).
  subst h. pose proof Ho as Ho1. apply mixed_app in Ho1 as [L1 Ho1]. apply mixed_last in Ho1 as (L0 & Ho0 & He).
  assert (forall pk, exists m, regular m h1 pk) as Hr1.
  { intros pk. destruct (regular_of _ _ (Hreg pk)) as [m Hm]. exists m. eapply regular_prefix. by eapply regular_prefix. }
  pose proof (mixed_ok _ _ Ho0) as Hok. simpl in He.
  assert (forall a, o = OInit a -> (forall r p, lg_root L0 = Some r -> p ∈ lg_writes L0 -> d_pubkey p = d_pubkey a -> d_slot a < d_slot p \/ exists x, counts L0 Finalized x /\ d_pubkey x = d_pubkey a) ->
    in_time st a Finalized) as Hload.
  { intros a -> Hnew p Hp. destruct (Hr1 (d_pubkey a)) as [m Hm]. destruct (mixed_inv m E _ h1 L0 st Ho0 Hrun Hm) as [_ Hpk]. unfold pk_inv in Hpk.
    apply version_at_inv in Hp as (i & b & Hi & Hb & Hg). rewrite Hi in Hpk. destruct Hpk as (b' & Hb' & [I1 I2 I3 I4 _ _]). rewrite Hb in Hb'. injection Hb' as <-.
    rewrite Hg in I4. destruct I4 as [[Hcp Ep] _]. change (applied_at st a Finalized) with Finalized. rewrite (version_at_entry _ _ _ _ _ Hi Hb). simpl.
    assert (forall y, counts L0 Processed y -> d_pubkey y = d_pubkey a -> d_owner a = d_owner y \/ ~ version_le a y) as Hord.
    { intros y Hy Ey. destruct (mixed_received _ _ Ho0 y) as (F' & o' & Hin & Hd); [destruct Hy as [?|[? _]]; auto|].
      apply (Hld h1 F a h2 F' o' y); [by rewrite <- app_assoc|done..]. }
    destruct (bc_fin b) as [y|].
    - right; right. exists y. split; [done|]. intros _. destruct I3 as [[Hcy Ey] _]. apply Hord; [by apply settled_counts_all|done].
    - destruct Hcp as [Hpb|[Hpw _]]; [destruct (I3 p); split; [by left|done]|]. destruct (Hord p) as [?|Hnv]; [right; split; done|done|by left|]. exfalso.
      destruct (known_root _ _ Hok (lo_writes _ Hok _ Hpw)) as [r Hr]. destruct (Hnew r p Hr Hpw Ep) as [Hlt|(x & Hx & Ex)]; [|by destruct (I3 x)].
      apply Hnv. unfold version_le. lia. }
  destruct He as [o L1 He|a r Hr Hlt|a [r Hr] Ha].
  - destruct He as [| | |a Hr| | | |a Hk Hc| | |]; simpl; try done.
    + apply Hload; [done|]. intros r p Hr'. congruence.
    + intros p _. right; left. unfold applied_at, slot_commit. destruct (Hr1 (d_pubkey a)) as [m Hm]. destruct (mixed_inv m E _ h1 L0 st Ho0 Hrun Hm) as [Hsv _].
      destruct (st_slots st !! d_slot a) as [ss|] eqn:Hs; simpl; [|done]. by apply (sv_open _ _ Hsv _ _ Hk Hc Hs).
  - simpl. apply Hload; [done|]. intros r' p Hr' Hp _. left. rewrite Hr in Hr'. injection Hr' as <-. pose proof (lo_min _ Hok _ _ (lo_writes _ Hok _ Hp) Hr). lia.
  - simpl. apply Hload; [done|]. intros r0 p0 _ _ _. right. by exists a.
Qed.
(** C102: program queries. *)
Theorem C102_late_loads_queries_show_ledger : forall E h L st F p fl c l,
  mixed h L -> run E store_empty h = Done st -> (forall pk, steady h pk \/ closes_once h pk) ->
  owners_settle (delivered_in h) -> closed_apart (delivered_in h) -> loads_in_order h -> versions_differ h -> (forall a, delivered_in h a -> honest E a) ->
  get_program_accounts E F st p fl c = Done (ROk l) ->
  NoDup (map d_pubkey l) /\
  (forall b, b ∈ l -> exists a, in_ledger L (d_pubkey b) c (Some a) /\ same_account E b a /\ d_owner b = p /\ meets E fl a) /\
  (forall a, in_ledger L (d_pubkey a) c (Some a) -> alive a -> d_owner a = p -> meets E fl a -> exists b, b ∈ l /\ same_account E b a).
Proof.
  intros E h L st F p fl c l Ho Hrun Hreg Hset Hap Hld Hdf Hh Hl. apply (queries_show E h L st F p fl c l); try done.
  - by apply mixed_received.
  - intros m pk Hm. by apply (mixed_version m E pk h L st).
  - by eapply mixed_in_time.
Qed.
Print Assumptions C102_late_loads_queries_show_ledger.
(** C102: what a slot reports. *)
Theorem C102_late_loads_notifications_show_ledger : forall E h L F si c L' st st' out,
  mixed h L -> event L (OSlot si c) L' -> run E store_empty h = Done st -> process_slot F st si c = Done (st', out) ->
  NoDup (map d_pubkey out) /\
  (forall a, a ∈ out -> steady (h ++ [(F, OSlot si c)]) (d_pubkey a) \/ closes_once (h ++ [(F, OSlot si c)]) (d_pubkey a) ->
     in_ledger L' (d_pubkey a) c (Some a) /\ forall x, counts L c x -> d_pubkey x = d_pubkey a -> d_slot x < d_slot a) /\
  (forall a, steady (h ++ [(F, OSlot si c)]) (d_pubkey a) \/ closes_once (h ++ [(F, OSlot si c)]) (d_pubkey a) ->
     in_ledger L' (d_pubkey a) c (Some a) -> ~ counts L c a -> (exists x, counts L' Processed x /\ d_pubkey x = d_pubkey a /\ alive x) ->
     exists b, b ∈ out /\ d_pubkey b = d_pubkey a /\ d_slot b = d_slot a /\ d_wv b = d_wv a).
Proof. exact notifications_show. Qed.
Print Assumptions C102_late_loads_notifications_show_ledger.

(** ** Examples *)
Definition next_late (L : ledger) (o : op) : option ledger :=
  match o, lg_root L with
  | OInit a, Some r =>
      if d_slot a <? r then Some (Ledger (lg_base L ++ [a]) (lg_root L) (lg_parent L) (lg_writes L) (lg_conf L) (lg_fin L))
      else match lg_fin L with
           | Some f => if bool_decide (a ∈ lg_writes L) && bool_decide (branchb fuel L f (d_slot a) = Some true) then Some L else None
           | None => None
           end
  | _, _ => next false L o
  end.
Lemma next_late_event L o L' : next_late L o = Some L' -> late_event L o L'.
Proof.
  assert (next false L o = Some L' -> late_event L o L') as Hn by (intros [H|[? _]]%next_event; [by constructor|done]).
  destruct o; try exact Hn. unfold next_late. destruct (lg_root L) as [r|] eqn:Hr; [|exact Hn].
  destruct (N.ltb_spec (d_slot a) r) as [Hlt|_]; [intros [= <-]; rewrite <- Hr; by econstructor|]. destruct (lg_fin L) as [f|] eqn:Hf; [|done].
  case_bool_decide as Hw; [|done]. case_bool_decide as Hb; [|done]. intros [= <-]. apply le_again; [by exists r|]. right. split; [done|]. exists f. split; [done|]. by apply branchb_spec in Hb.
Qed.
Fixpoint late_ledger (L : ledger) (h : list (filt * op)) : option ledger :=
  match h with [] => Some L | (_, o) :: h' => match next_late L o with Some L' => late_ledger L' h' | None => None end end.
Lemma late_ledger_mixed h L : late_ledger no_ledger h = Some L -> mixed h L.
Proof.
  assert (forall h0 L0 h, mixed h0 L0 -> late_ledger L0 h = Some L -> mixed (h0 ++ h) L) as H; [|apply (H [] no_ledger h); constructor].
  intros h0 L0 h1. revert h0 L0. induction h1 as [|[F o] h1 IH]; intros h0 L0 H0; simpl; [intros [= <-]; by rewrite app_nil_r|].
  destruct (next_late L0 o) as [L1|] eqn:Hn; [|done]. apply next_late_event in Hn. intros Hl.
  replace (h0 ++ (F, o) :: h1) with ((h0 ++ [(F, o)]) ++ h1) by (by rewrite <- app_assoc). eapply IH; [|done]. by econstructor.
Qed.
Definition late_at (h : list (filt * op)) : ledger := match late_ledger no_ledger h with Some L => L | None => no_ledger end.
Definition newerb (a b : acct) : bool := (d_slot b <? d_slot a) || ((d_slot b =? d_slot a) && (d_wv b <? d_wv a)).
Lemma newerb_spec a b : newerb a b = true -> ~ version_le a b.
Proof. unfold newerb, version_le. rewrite orb_true_iff, andb_true_iff, !N.ltb_lt, N.eqb_eq. lia. Qed.
Lemma given_app h1 h2 : given (h1 ++ h2) = given h1 ++ given h2.
Proof. unfold given. apply omap_app. Qed.
Lemma plain_given h1 F o h2 a : plain (h1 ++ (F, o) :: h2) -> delivers o a -> given (h1 ++ (F, o) :: h2) = given h1 ++ a :: given h2.
Proof.
  intros Hp Hd. rewrite given_app. f_equal. unfold plain in Hp. rewrite Forall_forall in Hp. specialize (Hp (F, o) ltac:(set_solver)) as [_ Hp].
  unfold given. change (omap given1 ((F, o) :: h2)) with (match given1 (F, o) with Some y => y :: omap given1 h2 | None => omap given1 h2 end).
  destruct o; simpl in *; try done; by subst.
Qed.
Lemma plain_prefix h1 h2 : plain (h1 ++ h2) -> plain h1 /\ plain h2.
Proof. apply Forall_app. Qed.
Fixpoint closesb (pk : pubkey) (seen l : list acct) : bool :=
  match l with
  | [] => true
  | a :: l' => (negb (d_pubkey a =? pk) || (0 <? d_lamports a) ||
      (forallb (fun b => negb (d_pubkey b =? pk) || newerb a b) seen && forallb (fun b => negb (d_pubkey b =? pk)) l')) && closesb pk (seen ++ [a]) l'
  end.
Lemma closesb_spec pk h : plain h -> closesb pk [] (given h) = true -> closes_once h pk.
Proof.
  intros Hp Hb. split; [intros F o F' o' a H _ _ _ _; by destruct (plain_in h F o Hp H) as [-> _]|].
  intros h1 F o h2 a -> Hd Ea Hdead. rewrite (plain_given h1 F o h2 a Hp Hd) in Hb. destruct (plain_prefix _ _ Hp) as [Hp1 Hp2]. apply Forall_cons in Hp2 as [_ Hp2].
  assert (forall l seen, closesb pk seen (l ++ a :: given h2) = true ->
    forallb (fun b => negb (d_pubkey b =? pk) || newerb a b) (seen ++ l) = true /\ forallb (fun b => negb (d_pubkey b =? pk)) (given h2) = true) as Hgo.
  { induction l as [|x l IH]; intros seen; simpl.
    - intros [H _]%andb_true_iff. rewrite app_nil_r. rewrite Ea, N.eqb_refl in H. destruct (N.ltb_spec 0 (d_lamports a)); [done|]. simpl in H. by apply andb_true_iff in H.
    - intros [_ H]%andb_true_iff. apply IH in H. by rewrite <- app_assoc in H. }
  apply Hgo in Hb as [H1 H2]. simpl in H1. rewrite forallb_forall in H1, H2. split; intros F' o' b Hin Hb Eb.
  - assert (b ∈ given h1) as Hg by (by apply (plain_in h1 F' o' Hp1 Hin)). specialize (H1 b (proj1 (elem_of_list_In _ _) Hg)). rewrite Eb, N.eqb_refl in H1. by apply newerb_spec.
  - assert (b ∈ given h2) as Hg by (by apply (plain_in h2 F' o' Hp2 Hin)). specialize (H2 b (proj1 (elem_of_list_In _ _) Hg)). by rewrite Eb, N.eqb_refl in H2.
Qed.
Fixpoint loadsb (seen : list acct) (h : list (filt * op)) : bool :=
  match h with
  | [] => true
  | x :: h' => match snd x with OInit a => forallb (fun b => negb (d_pubkey a =? d_pubkey b) || (d_owner a =? d_owner b) || newerb a b) seen | _ => true end && loadsb (seen ++ given [x]) h'
  end.
Lemma loadsb_spec h : plain h -> loadsb [] h = true -> loads_in_order h.
Proof.
  intros Hp Hb h1 F a h2 F' o b -> Hin Hd Epk. destruct (plain_prefix _ _ Hp) as [Hp1 _].
  assert (forall l seen, loadsb seen (l ++ (F, OInit a) :: h2) = true -> forallb (fun b => negb (d_pubkey a =? d_pubkey b) || (d_owner a =? d_owner b) || newerb a b) (seen ++ given l) = true) as Hgo.
  { induction l as [|x l IH]; intros seen.
    - intros [H _]%andb_true_iff. change (given []) with (@nil acct). by rewrite app_nil_r.
    - intros [_ H]%andb_true_iff. fold loadsb in H. apply IH in H. change (x :: l) with ([x] ++ l). rewrite given_app, app_assoc. exact H. }
  apply (Hgo h1 []) in Hb. simpl in Hb. rewrite forallb_forall in Hb. assert (b ∈ given h1) as Hg by (by apply (plain_in h1 F' o Hp1 Hin)).
  specialize (Hb b (proj1 (elem_of_list_In _ _) Hg)). rewrite Epk, N.eqb_refl in Hb. simpl in Hb. apply orb_true_iff in Hb as [Hb|Hb]; [left; by apply N.eqb_eq|right; by apply newerb_spec].
Qed.
(** Two accounts are loaded after the first slots, one of them before it changes its owner and is closed, and the finalized version of a third is loaded again. *)
Definition late_hist : list (filt * op) :=
  [ slt 10 9 Processed; upd (mk_acct 5 7 2 [] 10 2) Processed; slt 10 9 Confirmed; ini (mk_acct 6 7 1 [] 7 1); slt 11 10 Processed; slt 12 10 Processed;
    upd (mk_acct 5 7 3 [] 11 3) Processed; upd (mk_acct 5 7 4 [] 12 4) Processed; slt 13 11 Processed; upd (mk_acct 6 8 5 [] 11 5) Processed; slt 13 11 Confirmed; slt 11 10 Finalized;
    ini (mk_acct 5 7 3 [] 11 3); ini (mk_acct 9 8 6 [] 6 1); ini (mk_acct 5 7 1 [] 8 1); slt 14 13 Processed; upd (mk_acct 6 0 0 [] 14 6) Processed; upd (mk_acct 9 8 8 [] 14 7) Processed ].
Lemma late_hyps : plain late_hist /\ (forall pk, steady late_hist pk \/ closes_once late_hist pk).
Proof.
  assert (plain late_hist) as Hp by (by repeat constructor). split; [done|]. intros pk.
  destruct (decide (pk = 6)) as [->|Hne]; [right; apply closesb_spec; [done|crunch]|left].
  apply plain_steady; [done|]. let l := eval vm_compute in (given late_hist) in change (given late_hist) with l.
  repeat apply Forall_cons_2; try apply Forall_nil_2; intros Heq; try done; simpl in Heq; by destruct Hne.
Qed.
Example C102_late_loads_reads_show_ledger_example :
  mixed late_hist (late_at late_hist) /\ run ext_sample store_empty late_hist = Done (final late_hist) /\ steady late_hist 5 /\ closes_once late_hist 6 /\
  get_account (final late_hist) 5 Processed = Done (ROk (Some (mk_acct 5 7 4 [] 12 4))) /\ get_account (final late_hist) 5 Finalized = Done (ROk (Some (mk_acct 5 7 3 [] 11 3))) /\
  get_account (final late_hist) 6 Processed = Done (ROk None) /\ get_account (final late_hist) 6 Confirmed = Done (ROk (Some (mk_acct 6 8 5 [] 11 5))) /\
  get_account (final late_hist) 9 Finalized = Done (ROk (Some (mk_acct 9 8 6 [] 6 1))) /\ get_account (final late_hist) 9 Processed = Done (ROk (Some (mk_acct 9 8 8 [] 14 7))).
Proof.
  split; [apply late_ledger_mixed; crunch|]. split; [crunch|].
  split; [apply plain_steady; [apply late_hyps|vm_compute; repeat apply Forall_cons_2; try apply Forall_nil_2; intros Heq; try done; by inversion Heq]|].
  split; [apply closesb_spec; [apply late_hyps|crunch]|]. split_and!; crunch.
Qed.
Example C102_late_loads_queries_show_ledger_example :
  mixed late_hist (late_at late_hist) /\ run ext_sample store_empty late_hist = Done (final late_hist) /\ (forall pk, steady late_hist pk \/ closes_once late_hist pk) /\
  owners_settle (delivered_in late_hist) /\ closed_apart (delivered_in late_hist) /\ loads_in_order late_hist /\ versions_differ late_hist /\
  (forall a, delivered_in late_hist a -> honest ext_sample a) /\
  get_program_accounts ext_sample admit_all (final late_hist) 8 None Finalized = Done (ROk [mk_acct 6 8 5 [] 11 5; mk_acct 9 8 6 [] 6 1]).
Proof.
  destruct late_hyps as [Hp Hreg]. split; [apply late_ledger_mixed; crunch|]. split; [crunch|]. split; [done|].
  split; [apply (settleb_spec (given late_hist)); [crunch|intros a; by apply plain_delivered]|].
  split; [apply (apartb_spec (given late_hist)); [crunch|intros a; by apply plain_delivered]|].
  split; [apply loadsb_spec; [done|crunch]|]. split; [apply differb_spec; [done|crunch]|]. split; [|crunch].
  intros a Ha%plain_delivered; [|done]. assert (Forall (fun a => d_data a = DRaw []) (given late_hist)) as Hall.
  { let l := eval vm_compute in (given late_hist) in change (given late_hist) with l. repeat constructor. }
  rewrite Forall_forall in Hall. specialize (Hall a Ha). exists []. unfold FilterSpec.plain. rewrite Hall. done.
Qed.
Example C102_late_loads_notifications_show_ledger_example : exists out,
  mixed late_hist (late_at late_hist) /\ event (late_at late_hist) (OSlot (SlotInfo 14 13 0) Confirmed) (late_at (late_hist ++ [slt 14 13 Confirmed])) /\
  run ext_sample store_empty late_hist = Done (final late_hist) /\ process_slot admit_all (final late_hist) (SlotInfo 14 13 0) Confirmed = Done (final (late_hist ++ [slt 14 13 Confirmed]), out) /\
  out ≡ₚ [mk_acct 6 0 0 [] 14 6; mk_acct 9 8 8 [] 14 7] /\ steady (late_hist ++ [(admit_all, OSlot (SlotInfo 14 13 0) Confirmed)]) 9 /\
  ~ counts (late_at late_hist) Confirmed (mk_acct 9 8 8 [] 14 7).
Proof.
  exists (result_of [] (process_slot admit_all (final late_hist) (SlotInfo 14 13 0) Confirmed)).
  split; [apply late_ledger_mixed; crunch|]. split; [destruct (next_event false (late_at late_hist) (OSlot (SlotInfo 14 13 0) Confirmed) (late_at (late_hist ++ [slt 14 13 Confirmed]))) as [?|[? _]]; [crunch|done|done]|].
  split; [crunch|]. split; [crunch|]. split; [vm_compute; try reflexivity; apply perm_swap|].
  split.
  - apply plain_steady; [by repeat constructor|]. vm_compute. repeat apply Forall_cons_2; try apply Forall_nil_2; intros Heq; try done; by inversion Heq.
  - intros [Hb|(_ & t & Ht & Hb)].
    + let l := eval vm_compute in (lg_base (late_at late_hist)) in change (lg_base (late_at late_hist)) with l in Hb. rewrite !elem_of_cons, elem_of_nil in Hb. destruct_or?; done.
    + assert (lg_conf (late_at late_hist) = Some 13) as Hc by crunch. rewrite Hc in Ht. injection Ht as <-. revert Hb. apply (branchb_spec fuel _ 13 14 false). crunch.
Qed.

(** FINDING: when the account was closed for good before an older version of it is loaded, the old version is served as finalized. *)
Definition revive_hist : list (filt * op) :=
  [ slt 10 9 Processed; upd (mk_acct 5 7 2 [] 10 2) Processed; slt 10 9 Confirmed; slt 10 9 Finalized; slt 11 10 Processed; upd (mk_acct 5 0 0 [] 11 3) Processed;
    slt 11 10 Confirmed; slt 11 10 Finalized; ini (mk_acct 5 7 1 [] 8 1) ].
Theorem C102_load_after_close_refuted : exists E h L st pk a x,
  mixed h L /\ run E store_empty h = Done st /\ (forall F o, (F, o) ∈ h -> F = admit_all) /\ in_ledger L pk Finalized (Some x) /\ ~ alive x /\
  get_account st pk Finalized = Done (ROk (Some a)) /\ ~ version_le x a.
Proof.
  exists ext_sample, revive_hist, (late_at revive_hist), (final revive_hist), 5, (mk_acct 5 7 1 [] 8 1), (mk_acct 5 0 0 [] 11 3).
  split; [apply late_ledger_mixed; crunch|]. split; [crunch|]. split; [intros F o Hin; assert (plain revive_hist) as Hp by (by repeat constructor); by apply (plain_in _ _ _ Hp Hin)|].
  split; [split; [split; [|done]|]|].
  - right. split; [vm_compute; repeat constructor|]. exists 11. split; [crunch|]. apply (branchb_spec fuel _ 11 11 true). crunch.
  - intros a [Ha _]. assert (a ∈ given revive_hist) as Hg.
    { destruct (mixed_received revive_hist (late_at revive_hist) ltac:(apply late_ledger_mixed; crunch) a) as (F & o & Hin & Hd); [destruct Ha as [?|[? _]]; auto|].
      assert (plain revive_hist) as Hp by (by repeat constructor). by apply (plain_in _ _ _ Hp Hin). }
    let l := eval vm_compute in (given revive_hist) in change (given revive_hist) with l in Hg. rewrite !elem_of_cons, elem_of_nil in Hg.
    destruct Hg as [->|[->|[->|[]]]]; unfold version_le; simpl; lia.
  - split; [intros H; vm_compute in H; done|]. split; [crunch|]. apply newerb_spec. crunch.
Qed.
Print Assumptions C102_load_after_close_refuted.

(** Theorems about on-demand loading (C54, C55, C64). *)
From Verif Require Import Base DataModel FilterModel FilterSpec FilterProofs FilterProps StoreModel StoreSpec DispatchModel
  OnDemandModel OnDemandSpec OnDemandProofs.

(** C54: in every execution, when the source is asked to subscribe an account or a program query, no other call is loading it. *)
Theorem C54_no_second_subscription : forall S E (I : option fstore -> iface S) s f l x e x',
  leads E I s f l x -> od_step E I x e = Some x' ->
  (forall pk, subscribes_acc x x' pk -> forall n t, x.2 !! n = Some t -> ~ loads_acc t pk) /\
  (forall p cs, subscribes_prog x x' p cs -> forall n t, x.2 !! n = Some t -> ~ loads_prog t p cs).
Proof.
  intros S E I s f l x e x' Hr H. pose proof (leads_ainv _ _ _ _ _ _ Hr) as [Ha _]. pose proof (leads_pinv _ _ _ _ _ _ Hr) as [Hp _].
  destruct (step_cases _ _ _ _ _ H) as [(t & -> & Ht)|[(n & i & t & o' & t' & -> & Hn & Hadv & ->)|[[s' ->]|(g & fs & _ & _ & [(fs' & _ & ->)|[_ ->]])]]].
  - split; [intros pk [ok Hl]|intros p cs (fl & ok & _ & Hl)]; by apply log_ne in Hl.
  - split.
    + intros pk [ok Hl]. simpl in Hl. apply adv_acc in Hadv. destruct Hadv as [_ _ Hno|q ok' c -> -> Hni _ Hl'|q c -> -> _ Hl'].
      * by apply Hno in Hl.
      * rewrite Hl' in Hl. apply app_inj_tail in Hl as [_ [= <- _]]. intros m u Hm Hu. by apply Hni, (Ha m u).
      * rewrite Hl' in Hl. by apply log_ne in Hl.
    + intros p cs (fl & ok & Hd & Hl). simpl in Hl. apply adv_prog in Hadv. destruct Hadv as [_ _ Hno|q gl ok' c -> -> Hni _ Hl'|q gl c -> -> _ Hl'].
      * by apply Hno in Hl.
      * rewrite Hl' in Hl. apply app_inj_tail in Hl as [_ [= <- <- _]]. intros m u Hm Hu. apply Hni. unfold gpa_key. rewrite Hd. by apply (Hp m u).
      * rewrite Hl' in Hl. by apply log_ne in Hl.
  - split; [intros pk [ok Hl]|intros p cs (fl & ok & _ & Hl)]; by apply log_ne in Hl.
  - split; [intros pk [ok Hl]|intros p cs (fl & ok & _ & Hl)]; simpl in Hl; by apply app_inj_tail in Hl as [_ ?].
  - split; [intros pk [ok Hl]|intros p cs (fl & ok & _ & Hl)]; by apply log_ne in Hl.
Qed.
Print Assumptions C54_no_second_subscription.
(** A request for something that has never been subscribed and is not tracked otherwise subscribes it: the call cannot go on
    without the answer of the source. *)
Theorem C54_first_request_subscribes : forall S E (I : option fstore -> iface S) s fs0 f0 l x n, add_filters E fstore_empty fs0 = Done f0 -> leads E I s f0 l x ->
  (forall pk c, x.2 !! n = Some (ALock pk c) -> od_acc_poison x.1 = false -> is_Some (od_filters x.1) ->
    (forall ok, NAcc pk ok ∉ od_log x.1) -> (forall g, g ∈ fs0 \/ NOther g ∈ od_log x.1 -> pk ∉ f_accounts g) ->
    od_step E I x (EAdv n IGo) = None /\
    forall ok, exists x', od_step E I x (EAdv n (ISub ok)) = Some x' /\ od_log x'.1 = od_log x.1 ++ [NAcc pk ok] /\
      x'.2 !! n = Some (if ok then ASave pk c else ADone (RErr ErrorSubscribingAccount))) /\
  (forall p fl c, x.2 !! n = Some (PLock p fl c) -> od_gpa_poison x.1 = false -> (forall fl' ok, default [] fl' = default [] fl -> NProg p fl' ok ∉ od_log x.1) ->
    od_step E I x (EAdv n IGo) = None /\
    forall ok, exists x', od_step E I x (EAdv n (ISub ok)) = Some x' /\ od_log x'.1 = od_log x.1 ++ [NProg p fl ok] /\
      x'.2 !! n = Some (if ok then PAdd p fl c else PDone (RErr ErrorSubscribingAccount))).
Proof.
  intros S E I s fs0 f0 l x n Hf0 Hr. destruct (leads_ninv _ _ _ _ _ _ Hr) as (H1 & H2 & H3). destruct x as [o ts]; simpl in *. split.
  - intros pk c Hn Hp [f Hf] Hno Hg. rewrite Hn. simpl. rewrite Hp, Hf.
    rewrite bool_decide_false by (intros Hin; destruct (H1 _ Hin) as [ok ?]; by eapply Hno).
    assert (contains_account f pk = false) as ->.
    { unfold contains_account. apply bool_decide_eq_false. intros Hin. destruct (H3 f pk Hf Hin) as [Hx|(g & Hx & Hg')]; [|by eapply Hg; [right|]].
      apply (add_filters_accounts _ _ _ _ _ Hf0) in Hx as [Hx|(g & Hx & Hg')]; [set_solver|]. by eapply Hg; [left|]. }
    split; [done|]. intros ok. eexists. split; [reflexivity|]. split; [done|]. simpl. apply list_lookup_insert. by eapply lookup_lt_Some.
  - intros p fl c Hn Hp Hno. rewrite Hn. simpl. rewrite Hp.
    rewrite bool_decide_false by (intros Hin; destruct (H2 _ Hin) as (fl' & ok & Hfl & ?); by eapply Hno).
    split; [done|]. intros ok. eexists. split; [reflexivity|]. split; [done|]. simpl. apply list_lookup_insert. by eapply lookup_lt_Some.
Qed.
Print Assumptions C54_first_request_subscribes.

(** C54, what is false: once a load has failed (the source refused the subscription or the snapshot), the source is never
    asked for it again, whatever happens later. *)
Theorem C54_failed_load_never_retried : forall S E (I : option fstore -> iface S) s f l x e x' l' x'',
  leads E I s f l x -> od_step E I x e = Some x' -> od_run E I x' l' = Some x'' ->
  (forall pk, fails_acc x e x' pk -> exists more, od_log x''.1 = od_log x'.1 ++ more /\ forall ok, NAcc pk ok ∉ more) /\
  (forall p cs, fails_prog x e x' p cs -> exists more, od_log x''.1 = od_log x'.1 ++ more /\ forall fl ok, default [] fl = cs -> NProg p fl ok ∉ more).
Proof.
  intros S E I s f l x e x' l' x'' Hr H Hrun. pose proof (leads_ainv _ _ _ _ _ _ Hr) as [Hai Hau]. pose proof (leads_pinv _ _ _ _ _ _ Hr) as [Hpi Hpu].
  split.
  - intros pk Hf. assert (stuck_acc x' pk) as Hst.
    { destruct x as [o ts], Hf as (n & c & [(-> & Hn & Hn')|(-> & Hn)]); simpl in *; rewrite Hn in H; simpl in H.
      - repeat case_match; simplify_eq/=; rewrite list_lookup_insert in Hn' by (by eapply lookup_lt_Some); simplify_eq.
        split; [set_solver|]. simpl. intros m u [[-> ->]|[_ Hm]]%(insert_cases _ _ _ _ _ _ Hn); [by intros [? [?|?]]|].
        intros Hu. match goal with Hb : bool_decide _ = false |- _ => apply bool_decide_eq_false in Hb; apply Hb end. by apply (Hai m u).
      - injection H as <-. split; [apply (Hai n _ pk Hn); eexists; eauto|]. simpl. intros m u [[-> ->]|[Hne Hm]]%(insert_cases _ _ _ _ _ _ Hn); [by intros [? [?|?]]|].
        intros Hu. apply Hne. eapply Hau; [exact Hm|exact Hn|exact Hu|]. eexists; eauto. }
    destruct (run_log E I (fun m => forall ok, m <> NAcc pk ok) (fun y => stuck_acc y pk) l' x' x'') as [_ (more & Hm & Hq)]; [|done|done|].
    { intros y e' y' Hy Hs. destruct (step_stuck_acc _ _ _ _ _ _ Hy Hs) as [Hy' Hno]. split; [done|]. intros m Hm ok ->. by apply (Hno ok). }
    exists more. split; [done|]. intros ok Hin. rewrite Forall_forall in Hq. by eapply Hq.
  - intros p cs Hf. assert (stuck_prog x' p cs) as Hst.
    { destruct x as [o ts], Hf as (n & fl & c & Hd & [(-> & Hn & Hn')|(-> & Hn)]); simpl in *; rewrite Hn in H; simpl in H.
      - repeat case_match; simplify_eq/=; rewrite list_lookup_insert in Hn' by (by eapply lookup_lt_Some); simplify_eq.
        split; [by left|]. simpl. intros m u [[-> ->]|[_ Hm]]%(insert_cases _ _ _ _ _ _ Hn); [by intros (? & ? & ? & [?|[?|?]])|].
        intros Hu. match goal with Hb : bool_decide _ = false |- _ => apply bool_decide_eq_false in Hb; apply Hb end. by apply (Hpi m u).
      - injection H as <-. split; [apply (Hpi n _ p cs Hn); exists fl, c; eauto|]. simpl. intros m u [[-> ->]|[Hne Hm]]%(insert_cases _ _ _ _ _ _ Hn); [by intros (? & ? & ? & [?|[?|?]])|].
        intros Hu. apply Hne. eapply Hpu; [exact Hm|exact Hn|exact Hu|]. exists fl, c; eauto. }
    destruct (run_log E I (fun m => forall fl ok, default [] fl = cs -> m <> NProg p fl ok) (fun y => stuck_prog y p cs) l' x' x'') as [_ (more & Hm & Hq)]; [|done|done|].
    { intros y e' y' Hy Hs. destruct (step_stuck_prog _ _ _ _ _ _ _ Hy Hs) as [Hy' Hno]. split; [done|]. intros m Hm fl ok Hd ->. by apply (Hno fl ok). }
    exists more. split; [done|]. intros fl ok Hd Hin. rewrite Forall_forall in Hq. by eapply Hq.
Qed.
Print Assumptions C54_failed_load_never_retried.

(** C54, what holds for programs: a query whose conditions are raw bytes and that was loaded is not subscribed again by
    later calls, as long as the filter store is usable. *)
Theorem C54_loaded_program_not_resubscribed_partial : forall S E (I : option fstore -> iface S) s f0 l x f p fl c n,
  leads E I s f0 l x -> NSaved (AFilter [] (Some p) fl) ∈ od_log x.1 -> raw_filter (AFilter [] (Some p) fl) -> od_filters x.1 = Some f ->
  x.2 !! n = Some (PStart p fl c) -> od_step E I x (EAdv n IGo) = Some (x.1, <[n := PQuery p fl c]> x.2).
Proof.
  intros S E I s f0 l x f p fl c n Hr Hs Hraw Hf Hn. destruct (leads_inv _ _ _ _ _ _ Hr) as [_ Hi]. destruct (Hi f Hf) as (fs & Hfs & _ & Hsv & _).
  destruct x as [o ts]; simpl in *. rewrite Hn. simpl. rewrite Hf. by rewrite (added_contained _ _ _ _ _ Hfs (Hsv _ _ Hs) Hraw).
Qed.
Print Assumptions C54_loaded_program_not_resubscribed_partial.

(** C55, what holds: the call that loads a program answers after its snapshot was saved; ... *)
Theorem C55_loader_answers_after_load : forall S E (I : option fstore -> iface S) s f0 l x n p fl c,
  leads E I s f0 l x -> x.2 !! n = Some (PRead p fl c) -> NSaved (AFilter [] (Some p) fl) ∈ od_log x.1.
Proof. intros S E I s f0 l x n p fl c Hr Hn. destruct (leads_inv _ _ _ _ _ _ Hr) as [Hl _]. apply (Hl n p fl c). by right. Qed.
Print Assumptions C55_loader_answers_after_load.
(** ... and a query answered from the filters while no call is loading and none has failed only covers accounts of filters that
    were there from the start, were added from outside, or whose snapshot has been saved. *)
Theorem C55_quiet_answers_complete_partial : forall S E (I : option fstore -> iface S) s fs0 f0 l x x' p fl c n a d,
  Forall (decodable E) fs0 -> add_filters E fstore_empty fs0 = Done f0 -> Forall (ev_decodable E) l ->
  leads E I s f0 l x -> Forall calm x.2 -> x.2 !! n = Some (PStart p fl c) ->
  od_step E I x (EAdv n IGo) = Some x' -> x'.2 !! n = Some (PQuery p fl c) -> plain E a d -> selects E (AFilter [] (Some p) fl) a ->
  exists g, selects E g a /\ (g ∈ fs0 \/ NSaved g ∈ od_log x.1 \/ NOther g ∈ od_log x.1).
Proof.
  intros S E I s fs0 f0 l x x' p fl c n a d Hd0 Hf0 Hev Hr Hcalm Hn Hx' Hn' Hpl Hsel. destruct (leads_inv _ _ _ _ _ _ Hr) as [_ Hi].
  assert (od_gpa x.1 = []) as Hq.
  { destruct (od_gpa x.1) as [|k ks] eqn:Hk; [done|]. destruct (leads_ginv _ _ _ _ _ _ Hr k) as (m & t & Hm & Ht); [rewrite Hk; left|].
    rewrite Forall_forall in Hcalm. apply elem_of_list_lookup_2 in Hm. destruct (Hcalm t Hm) as (H1 & H2 & H3).
    destruct Ht as [Ht|[->|[e ->]]]; [by destruct (H3 _ _ Ht)|done|by destruct (H2 e)]. }
  assert (exists f, od_filters x.1 = Some f /\ contains_filter f (prog_filter p fl) = true) as (f & Hf & Hc).
  { destruct x as [o ts]; simpl in *. rewrite Hn in Hx'. simpl in Hx'. assert (n < length ts)%nat by (by eapply lookup_lt_Some).
    destruct (od_filters o) as [f|]; [|injection Hx' as <-; simpl in Hn'; by rewrite list_lookup_insert in Hn'].
    exists f. split; [done|]. destruct (contains_filter f (prog_filter p fl)); [done|]. injection Hx' as <-. simpl in Hn'. by rewrite list_lookup_insert in Hn'. }
  destruct (leads_clean _ _ _ _ _ _ Hr Hev) as [_ Hld]. destruct (Hi f Hf) as (fs & Hfs & Hst & _).
  assert (forall g, g ∈ fs -> settled x g) as Hset.
  { intros g Hg. destruct (Hst g Hg) as [?|(q & gl & _ & Hk & _)]; [done|]. rewrite Hq in Hk. by apply elem_of_nil in Hk. }
  assert (add_filters E fstore_empty (fs0 ++ fs) = Done f) as Hall by (by rewrite add_filters_app, Hf0).
  assert (Forall (decodable E) (fs0 ++ fs)) as Hd.
  { apply Forall_app. split; [done|]. apply Forall_forall. intros g Hg. by apply Hld, Hset. }
  pose proof (contains_sound E _ _ _ _ _ Hd Hall Hpl Hc Hsel) as Hs.
  destruct (satisfies_correct E (fs0 ++ fs) a d Hd Hpl) as (st & b & Hst' & Hb & Hiff). rewrite Hst' in Hall. injection Hall as ->. rewrite Hs in Hb. injection Hb as <-.
  destruct (proj1 Hiff eq_refl) as (g & Hg & Hsg). exists g. split; [done|]. apply elem_of_app in Hg as [Hg|Hg]; [by left|right]. by apply Hset.
Qed.
Print Assumptions C55_quiet_answers_complete_partial.

(** C64, what holds: with well-formed patterns the filter store stays usable. *)
Theorem C64_wellformed_requests_harmless_partial : forall S E (I : option fstore -> iface S) s f0 l x,
  Forall (ev_decodable E) l -> leads E I s f0 l x -> is_Some (od_filters x.1).
Proof. intros S E I s f0 l x Hev Hr. by destruct (leads_clean _ _ _ _ _ _ Hr Hev) as [[? _] _]. Qed.
Print Assumptions C64_wellformed_requests_harmless_partial.

(** How far the harm goes.  A mutex is poisoned by a call that panics while it holds it: a request for an unknown account when the filter store is
    poisoned, or a waiting call whose read panics.  From then on, in every execution, each request that comes to the mutex panics and each
    call that is waiting is told that it timed out. *)
Definition account_calls_dead {S} (E : ext) (I : option fstore -> iface S) (x : sys S) : Prop := forall l y m t i y',
  od_run E I x l = Some y -> y.2 !! m = Some t -> od_step E I y (EAdv m i) = Some y' ->
  (forall pk c, t = ALock pk c \/ t = AClear pk c -> y'.2 !! m = Some TDead) /\ (forall pk c, t = AWait pk c -> y'.2 !! m = Some (ADone (RErr OperationTimeOut))).
Definition program_calls_dead {S} (E : ext) (I : option fstore -> iface S) (x : sys S) : Prop := forall l y m t i y',
  od_run E I x l = Some y -> y.2 !! m = Some t -> od_step E I y (EAdv m i) = Some y' ->
  (forall p fl c, t = PLock p fl c \/ t = PClear p fl c -> y'.2 !! m = Some TDead) /\ (forall p fl c, t = PWait p fl c -> y'.2 !! m = Some (PDone (RErr OperationTimeOut))).
Lemma poison_kept {S} E (I : option fstore -> iface S) x e x' : od_step E I x e = Some x' ->
  (od_acc_poison x.1 = true -> od_acc_poison x'.1 = true) /\ (od_gpa_poison x.1 = true -> od_gpa_poison x'.1 = true).
Proof.
  destruct x as [o ts], e as [pk c|p fl c|n i|s|f]; simpl.
  - by intros [= <-].
  - by intros [= <-].
  - destruct (ts !! n) as [t|]; [|done]. destruct (adv E I o t i) as [[o' t']|] eqn:Ha; [|done]. intros [= <-]. simpl.
    unfold adv, save_one, a_read, p_read in Ha. repeat (case_match; simplify_eq/=); done.
  - by intros [= <-].
  - destruct (od_filters o) as [fs|]; [|done]. destruct (add_filter E fs f); by intros [= <-].
Qed.
Lemma poison_forever {S} E (I : option fstore -> iface S) l : forall x y, od_run E I x l = Some y ->
  (od_acc_poison x.1 = true -> od_acc_poison y.1 = true) /\ (od_gpa_poison x.1 = true -> od_gpa_poison y.1 = true).
Proof.
  induction l as [|e l IH]; intros x y; simpl; [by intros [= <-]|]. destruct (od_step E I x e) as [x1|] eqn:Hs; [|done]. intros Hr.
  destruct (poison_kept _ _ _ _ _ Hs), (IH _ _ Hr). split; auto.
Qed.
Lemma adv_slot {S} (o' : od S) (t' : thr) (ts : list thr) (n : nat) t : ts !! n = Some t -> (<[n := t']> ts) !! n = Some t'.
Proof. intros H. apply list_lookup_insert. by eapply lookup_lt_Some. Qed.
Theorem C64_account_poison_spreads_finding : forall S E (I : option fstore -> iface S) x n i x' pk c,
  od_acc_poison x.1 = false -> (x.2 !! n = Some (ALock pk c) /\ pk ∉ od_acc x.1 /\ od_filters x.1 = None) \/ (x.2 !! n = Some (AWait pk c) /\ i_get (I (od_filters x.1)) (od_st x.1) pk c = Panic) ->
  od_step E I x (EAdv n i) = Some x' -> x'.2 !! n = Some TDead /\ account_calls_dead E I x'.
Proof.
  intros S E I [o ts] n i x' pk c Hp Hcase Hs. simpl in *.
  assert (x'.2 !! n = Some TDead /\ od_acc_poison x'.1 = true) as [H1 H2].
  { destruct Hcase as [(Ht & Hpk & Hf)|[Ht Hg]]; rewrite Ht in Hs; simpl in Hs.
    - rewrite Hp, bool_decide_eq_false_2, Hf in Hs by done. injection Hs as <-. split; [by eapply (adv_slot o)|done].
    - destruct i; try done. simpl in Hs. unfold a_read in Hs. rewrite Hp, Hg in Hs. injection Hs as <-. split; [by eapply (adv_slot o)|done]. }
  split; [done|]. intros l [o2 ts2] m t j y' Hr Hm Hst. destruct (poison_forever _ _ _ _ _ Hr) as [Hk _]. specialize (Hk H2). simpl in *. rewrite Hm in Hst. split.
  - intros pk' c' [->| ->]; simpl in Hst.
    + rewrite Hk in Hst. injection Hst as <-. by eapply (adv_slot o).
    + destruct j; try done. rewrite Hk in Hst. injection Hst as <-. by eapply (adv_slot o).
  - intros pk' c' ->. simpl in Hst. destruct j; try done. rewrite Hk in Hst. injection Hst as <-. by eapply (adv_slot o).
Qed.
Print Assumptions C64_account_poison_spreads_finding.
Theorem C64_program_poison_spreads_finding : forall S E (I : option fstore -> iface S) x n i x' p fl c,
  od_gpa_poison x.1 = false -> x.2 !! n = Some (PWait p fl c) -> i_gpa (I (od_filters x.1)) (od_st x.1) p fl c = Panic ->
  od_step E I x (EAdv n i) = Some x' -> x'.2 !! n = Some TDead /\ program_calls_dead E I x'.
Proof.
  intros S E I [o ts] n i x' p fl c Hp Ht Hg Hs. simpl in *.
  assert (x'.2 !! n = Some TDead /\ od_gpa_poison x'.1 = true) as [H1 H2].
  { rewrite Ht in Hs. simpl in Hs. destruct i; try done. simpl in Hs. unfold p_read in Hs. rewrite Hp, Hg in Hs. injection Hs as <-. split; [by eapply (adv_slot o)|done]. }
  split; [done|]. intros l [o2 ts2] m t j y' Hr Hm Hst. destruct (poison_forever _ _ _ _ _ Hr) as [_ Hk]. specialize (Hk H2). simpl in *. rewrite Hm in Hst. split.
  - intros p' fl' c' [->| ->]; simpl in Hst.
    + rewrite Hk in Hst. injection Hst as <-. by eapply (adv_slot o).
    + destruct j; try done. rewrite Hk in Hst. injection Hst as <-. by eapply (adv_slot o).
  - intros p' fl' c' ->. simpl in Hst. destruct j; try done. rewrite Hk in Hst. injection Hst as <-. by eapply (adv_slot o).
Qed.
Print Assumptions C64_program_poison_spreads_finding.

(** ** Executions over the in-memory store *)
Definition Em := ext_sample.
Definition Im := mem_iface ext_sample.
Definition go (n : nat) : ev store := EAdv n IGo.
Definition srun (l : list (ev store)) : option (sys store) := od_run Em Im (od_new store_empty fstore_empty) l.
Definition acc5 : acct := mk_acct 5 7 1 (bs [1;8]) 10 1.
Definition calls (o : option (sys store)) : list thr := match o with Some x => x.2 | None => [] end.
Definition logged (o : option (sys store)) : list note := match o with Some x => od_log x.1 | None => [] end.
(** A complete load of a program by one call, with a second one waiting for it. *)
Definition load7 : list (ev store) :=
  [EGpa 7 None Finalized; go 0; EAdv 0 (ISub true); EGpa 7 None Finalized; go 1; go 1; go 0; EAdv 0 (ISave acc5); EAdv 0 (ISaved true); go 0; go 0; go 1].
Example load7_result : calls (srun load7) = [PDone (ROk [acc5]); PDone (ROk [acc5])] /\ logged (srun load7) = [NProg 7 None true; NSaved (prog_filter 7 None)].
Proof. split; by vm_compute. Qed.
Definition sys_of (l : list (ev store)) : sys store := default (od_new store_empty fstore_empty) (srun l).
Lemma srun_leads l : bool_decide (is_Some (srun l)) = true -> leads Em Im store_empty fstore_empty l (sys_of l).
Proof. intros [x Hx]%bool_decide_eq_true. unfold leads, sys_of. unfold srun in *. rewrite Hx. done. Qed.
Example C54_example_hyps :
  leads Em Im store_empty fstore_empty (take 2 load7) (sys_of (take 2 load7)) /\
  od_step Em Im (sys_of (take 2 load7)) (EAdv 0 (ISub true)) = Some (sys_of (take 3 load7)) /\
  subscribes_prog (sys_of (take 2 load7)) (sys_of (take 3 load7)) 7 [] /\
  (sys_of (take 2 load7)).2 !! 0%nat = Some (PLock 7 None Finalized) /\ od_gpa_poison (sys_of (take 2 load7)).1 = false /\ od_log (sys_of (take 2 load7)).1 = [] /\
  (let l := load7 ++ [EGpa 7 None Confirmed] in leads Em Im store_empty fstore_empty l (sys_of l) /\ NSaved (prog_filter 7 None) ∈ od_log (sys_of l).1 /\
     raw_filter (prog_filter 7 None) /\ is_Some (od_filters (sys_of l).1) /\ (sys_of l).2 !! 2%nat = Some (PStart 7 None Confirmed)).
Proof.
  split; [apply srun_leads; by vm_compute|]. split; [by vm_compute|]. split; [exists None, true; split; by vm_compute|].
  split; [by vm_compute|]. split; [by vm_compute|]. split; [by vm_compute|]. intros l.
  split; [apply srun_leads; by vm_compute|]. split; [vm_compute; right; left|]. split; [done|]. split; [vm_compute; eauto|by vm_compute].
Qed.
(** A failed load: the second call waits for nothing and is told that the account does not exist. *)
Definition fail5 : list (ev store) := [EGet 5 Finalized; go 0; EAdv 0 (ISub true)].
Definition after_fail5 : list (ev store) := [EGet 5 Finalized; go 1; EAdv 1 (ISub true); go 1].
Example C54_example_failure : leads Em Im store_empty fstore_empty fail5 (sys_of fail5) /\
  od_step Em Im (sys_of fail5) (EAdv 0 (ISaved false)) = Some (sys_of (fail5 ++ [EAdv 0 (ISaved false)])) /\
  fails_acc (sys_of fail5) (EAdv 0 (ISaved false)) (sys_of (fail5 ++ [EAdv 0 (ISaved false)])) 5 /\
  od_run Em Im (sys_of (fail5 ++ [EAdv 0 (ISaved false)])) after_fail5 = Some (sys_of (fail5 ++ [EAdv 0 (ISaved false)] ++ after_fail5)).
Proof.
  split; [apply srun_leads; by vm_compute|]. split; [by vm_compute|]. split; [|by vm_compute]. exists 0%nat, Finalized. right. split; [done|by vm_compute].
Qed.
Theorem C54_retry_refuted : exists l l', calls (srun l) = [ADone (RErr ErrorCreatingSnapshot)] /\
  calls (srun (l ++ l')) = [ADone (RErr ErrorCreatingSnapshot); ADone (ROk None)] /\ logged (srun (l ++ l')) = [NAcc 5 true].
Proof. exists (fail5 ++ [EAdv 0 (ISaved false)]), after_fail5. split; [by vm_compute|]. split; by vm_compute. Qed.
Print Assumptions C54_retry_refuted.
(** An account is subscribed again by every call: the filter that would remember the subscription is only added for programs. *)
Definition one5 (n : nat) : list (ev store) := [EGet 5 Finalized; go n; EAdv n (ISub true); EAdv n (ISave acc5); EAdv n (ISaved true); go n; go n].
Theorem C54_account_subscribed_again_refuted : exists l, logged (srun l) = [NAcc 5 true; NSaved (acc_filter 5); NAcc 5 true; NSaved (acc_filter 5)] /\
  (* the source delivered the account both times, and the store that shares the filters refused it *)
  EAdv 0 (ISave acc5) ∈ l /\ EAdv 1 (ISave acc5) ∈ l /\ d_pubkey acc5 = 5 /\ calls (srun l) = [ADone (ROk None); ADone (ROk None)].
Proof.
  exists (one5 0 ++ one5 1). split; [by vm_compute|]. split; [do 3 right; left|]. split; [do 10 right; left|]. split; by vm_compute.
Qed.
Print Assumptions C54_account_subscribed_again_refuted.
(** Two calls that both find the program not covered subscribe it one after the other. *)
Theorem C54_program_subscribed_again_refuted : exists l, logged (srun l) = [NProg 7 None true; NSaved (prog_filter 7 None); NProg 7 None true].
Proof.
  exists [EGpa 7 None Finalized; go 0; EGpa 7 None Finalized; go 1; EAdv 0 (ISub true); go 0; EAdv 0 (ISaved true); go 0; EAdv 1 (ISub true)]. by vm_compute.
Qed.
Print Assumptions C54_program_subscribed_again_refuted.

(** C55: a call that comes while the snapshot is being saved is answered from the incomplete store: the program has an
    account, which the loading call returns. *)
Definition early7 : list (ev store) :=
  [EGpa 7 None Finalized; go 0; EAdv 0 (ISub true); go 0; EGpa 7 None Finalized; go 1; go 1; EAdv 0 (ISave acc5); EAdv 0 (ISaved true); go 0; go 0].
Theorem C55_answer_before_load_refuted : exists l, calls (srun l) = [PDone (ROk [acc5]); PDone (ROk [])].
Proof. exists early7. by vm_compute. Qed.
Print Assumptions C55_answer_before_load_refuted.
(** A call that waits for the load is answered after ten seconds from the incomplete store, not with a timeout. *)
Theorem C55_timeout_answers_refuted : exists l1 l2, calls (srun l1) = [PAdd 7 None Finalized; PWait 7 None Finalized] /\
  calls (srun (l1 ++ l2)) = [PDone (ROk [acc5]); PDone (ROk [])].
Proof.
  exists [EGpa 7 None Finalized; go 0; EAdv 0 (ISub true); EGpa 7 None Finalized; go 1; go 1],
    [go 0; go 1; EAdv 0 (ISave acc5); EAdv 0 (ISaved true); go 0; go 0]. split; by vm_compute.
Qed.
Print Assumptions C55_timeout_answers_refuted.
Example C55_example_hyps : let l := load7 ++ [EGpa 7 None Confirmed] in Forall (ev_decodable Em) l /\ leads Em Im store_empty fstore_empty l (sys_of l) /\
  Forall calm (sys_of l).2 /\ (sys_of l).2 !! 2%nat = Some (PStart 7 None Confirmed) /\
  (exists x', od_step Em Im (sys_of l) (go 2) = Some x' /\ x'.2 !! 2%nat = Some (PQuery 7 None Confirmed)) /\
  plain Em acc5 (bs [1;8]) /\ selects Em (AFilter [] (Some 7) None) acc5 /\
  (sys_of (take 10 load7)).2 !! 0%nat = Some (PRead 7 None Finalized).
Proof.
  intros l. split; [repeat constructor; done|]. split; [apply srun_leads; by vm_compute|].
  split; [|split; [by vm_compute|]].
  - assert ((sys_of l).2 = [PDone (ROk [acc5]); PDone (ROk [acc5]); PStart 7 None Confirmed]) as -> by (by vm_compute).
    repeat (apply Forall_cons; split; [|]); [..|done]; (split; [done|]; split; [done|]); intros ? ? (? & ? & _ & ?); by destruct_or!.
  - split; [eexists; split; by vm_compute|]. split; [by vm_compute|]. split; [by right|by vm_compute].
Qed.

(** C64: one query with a malformed pattern leaves the filter store poisoned: afterwards every update of a live account makes
    the store behind it panic, for programs that have nothing to do with the query. *)
Definition bad_query : list (ev store) := [EFilter (prog_filter 8 None); EGpa 7 (Some [MemcmpC (Memcmp 0 (MBase58 []))]) Finalized; go 0; EAdv 0 (ISub true); go 0].
Definition acc8 : acct := mk_acct 6 8 1 (bs [1]) 10 1.
Theorem C64_malformed_query_refuted : exists l x a, srun l = Some x /\ calls (srun l) = [TDead] /\ d_owner a = 8 /\
  od_filters x.1 = None /\ i_update (Im (od_filters x.1)) (od_st x.1) a Finalized = Panic /\
  (exists st, i_update (Im (od_filters (sys_of (take 1 l)).1)) store_empty a Finalized = Done (st, true)).
Proof.
  exists bad_query. eexists. exists acc8. split; [vm_compute; reflexivity|]. split; [by vm_compute|]. split; [done|]. split; [done|]. split; [by vm_compute|].
  eexists. vm_compute. reflexivity.
Qed.
Print Assumptions C64_malformed_query_refuted.
Example C64_example_hyps : Forall (ev_decodable Em) load7 /\ leads Em Im store_empty fstore_empty load7 (sys_of load7).
Proof. split; [repeat constructor; done|apply srun_leads; by vm_compute]. Qed.
(** After the malformed query: a request for an unknown account kills itself and the account mutex; a query waiting for a load kills itself and the program mutex. *)
Definition bad_then_get : list (ev store) := bad_query ++ [EGet 5 Finalized; go 1].
Definition bad_while_waiting : list (ev store) :=
  [EGpa 7 None Finalized; go 0; EAdv 0 (ISub true); EGpa 7 None Finalized; go 1; go 1; EFilter (prog_filter 8 (Some [MemcmpC (Memcmp 0 (MBase58 []))]))].
Example C64_spreads_example :
  (let x := sys_of bad_then_get in leads Em Im store_empty fstore_empty bad_then_get x /\ od_acc_poison x.1 = false /\ x.2 !! 1%nat = Some (ALock 5 Finalized) /\ 5 ∉ od_acc x.1 /\
     od_filters x.1 = None /\ is_Some (od_step Em Im x (go 1))) /\
  (let x := sys_of bad_while_waiting in leads Em Im store_empty fstore_empty bad_while_waiting x /\ od_gpa_poison x.1 = false /\ x.2 !! 1%nat = Some (PWait 7 None Finalized) /\
     i_gpa (Im (od_filters x.1)) (od_st x.1) 7 None Finalized = Panic /\ is_Some (od_step Em Im x (go 1))).
Proof.
  split; intros x.
  - split; [apply srun_leads; by vm_compute|]. split; [by vm_compute|]. split; [by vm_compute|]. split; [apply (bool_decide_unpack _); by vm_compute|]. split; [by vm_compute|]. vm_compute. eauto.
  - split; [apply srun_leads; by vm_compute|]. split; [by vm_compute|]. split; [by vm_compute|]. split; [by vm_compute|]. vm_compute. eauto.
Qed.

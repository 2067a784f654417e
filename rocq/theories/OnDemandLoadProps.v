(** On-demand loading over the in-memory store (C55): where answers come from, and a load that nothing interferes with. *)
From Verif Require Import Base SMap DataModel FilterModel FilterSpec FilterProofs FilterProps BincodeModel ByCommitModel ByCommitSpec ByCommitProofs StoreModel StoreSpec StoreProofs StoreSlot StoreProps
  OwnerSpec LedgerSpec LedgerProps LedgerQueryProps DispatchModel OnDemandModel OnDemandSpec OnDemandProofs.
From Verif Require OnDemandProps.

(** What a call was asked. *)
Definition asks_acc (t : thr) (pk : pubkey) (c : commitment) : Prop :=
  t = AStart pk c \/ t = ALock pk c \/ t = AWait pk c \/ t = ASave pk c \/ t = AClear pk c \/ t = ARead pk c.
Definition asks_prog (t : thr) (p : pubkey) (fl : option (list cond)) (c : commitment) : Prop :=
  t = PStart p fl c \/ t = PQuery p fl c \/ t = PLock p fl c \/ t = PWait p fl c \/ t = PAdd p fl c \/ t = PSave p fl c \/ t = PClear p fl c \/ t = PRead p fl c.
(** C55: a call keeps its question until it is answered, and an answer is what the storage says at that moment, a refusal of the source, or (for an account
    that a filter names) that there is no such account. *)
Theorem C55_program_answers_from_storage : forall S E (I : option fstore -> iface S) x n i x' t p fl c,
  od_step E I x (EAdv n i) = Some x' -> x.2 !! n = Some t -> asks_prog t p fl c ->
  exists t', x'.2 !! n = Some t' /\
    (asks_prog t' p fl c \/ t' = TDead \/
     exists r, t' = PDone r /\
       (i_gpa (I (od_filters x.1)) (od_st x.1) p fl c = Done r \/
        (r = RErr ErrorSubscribingAccount /\ i = ISub false) \/ (r = RErr ErrorCreatingSnapshot /\ i = ISaved false) \/ (r = RErr OperationTimeOut /\ od_gpa_poison x.1 = true))).
Proof.
  intros S E I [o ts] n i x' t p fl c Hs Hn Ha. simpl in *. rewrite Hn in Hs. destruct (adv E I o t i) as [[o' t']|] eqn:He; [|done]. injection Hs as <-. simpl.
  exists t'. split; [apply list_lookup_insert; by eapply lookup_lt_Some|]. unfold asks_prog in *.
  destruct Ha as [->|[->|[->|[->|[->|[->|[->| ->]]]]]]]; simpl in He; unfold p_read, save_one in He;
    repeat (case_match; try done); simplify_eq; naive_solver.
Qed.
Print Assumptions C55_program_answers_from_storage.
Theorem C55_account_answers_from_storage : forall S E (I : option fstore -> iface S) x n i x' t pk c,
  od_step E I x (EAdv n i) = Some x' -> x.2 !! n = Some t -> asks_acc t pk c ->
  exists t', x'.2 !! n = Some t' /\
    (asks_acc t' pk c \/ t' = TDead \/
     exists r, t' = ADone r /\
       (i_get (I (od_filters x.1)) (od_st x.1) pk c = Done r \/ (r = ROk None /\ exists f, od_filters x.1 = Some f /\ contains_account f pk = true) \/
        (r = RErr ErrorSubscribingAccount /\ i = ISub false) \/ (r = RErr ErrorCreatingSnapshot /\ i = ISaved false) \/ (r = RErr OperationTimeOut /\ od_acc_poison x.1 = true))).
Proof.
  intros S E I [o ts] n i x' t pk c Hs Hn Ha. simpl in *. rewrite Hn in Hs. destruct (adv E I o t i) as [[o' t']|] eqn:He; [|done]. injection Hs as <-. simpl.
  exists t'. split; [apply list_lookup_insert; by eapply lookup_lt_Some|]. unfold asks_acc in *.
  destruct Ha as [->|[->|[->|[->|[->| ->]]]]]; simpl in He; unfold a_read, save_one in He;
    repeat (case_match; try done); simplify_eq; naive_solver.
Qed.
Print Assumptions C55_account_answers_from_storage.

(** ** A load that nothing interferes with *)
Definition mem_filt (E : ext) (f : fstore) : filt := Filt (fun a => match satisfies E f a with Done b => b | Panic => false end) (contains_filter f).
(** One call asks for the accounts of a program; the source accepts the subscription and delivers [as_]. *)
Definition solo (p : pubkey) (fl : option (list cond)) (c : commitment) (as_ : list acct) : list (ev store) :=
  [EGpa p fl c; EAdv 0 IGo; EAdv 0 (ISub true); EAdv 0 IGo] ++ map (fun a => EAdv 0 (ISave a)) as_ ++ [EAdv 0 (ISaved true); EAdv 0 IGo; EAdv 0 IGo].
Lemma saves E f A pa G pg lg p fl c as_ : forall st st', run E st (map (fun a => (mem_filt E f, OInit a)) as_) = Done st' ->
  od_run E (mem_iface E) (OD st (Some f) A pa G pg lg, [PSave p fl c]) (map (fun a => EAdv 0 (ISave a)) as_) = Some (OD st' (Some f) A pa G pg lg, [PSave p fl c]).
Proof.
  induction as_ as [|a as_ IH]; intros st st'; simpl; [by intros [= <-]|]. unfold save_one. simpl. fold (mem_filt E f).
  destruct (init_account (mem_filt E f) st a) as [st1|]; [|done]. simpl. intros H. by apply IH.
Qed.
Lemma od_run_app {S} E (I : option fstore -> iface S) x l1 l2 : od_run E I x (l1 ++ l2) = match od_run E I x l1 with Some x' => od_run E I x' l2 | None => None end.
Proof. revert x. induction l1 as [|e l1 IH]; intros x; simpl; [done|]. destruct (od_step E I x e); [apply IH|done]. Qed.
Lemma loads_orderly F as_ : orderly (map (fun a : acct => (F, OInit a)) as_) (Ledger as_ None ∅ [] None None).
Proof.
  induction as_ as [|a as_ IH] using rev_ind; [constructor|]. rewrite map_app. econstructor; [exact IH|]. by apply (ev_load (Ledger as_ None ∅ [] None None)).
Qed.
Lemma loads_in (F : filt) as_ (G : filt) (o : op) a : (G, o) ∈ map (fun a : acct => (F, OInit a)) as_ -> delivers o a -> G = F /\ a ∈ as_.
Proof. intros (b & [= -> ->] & Hb)%elem_of_list_fmap Hd. simpl in Hd. by subst. Qed.
Lemma same_pubkey as_ (a b : acct) : NoDup (map d_pubkey as_) -> a ∈ as_ -> b ∈ as_ -> d_pubkey a = d_pubkey b -> a = b.
Proof.
  induction as_ as [|x as_ IH]; simpl; [intros _ ?%elem_of_nil; done|]. rewrite NoDup_cons, !elem_of_cons. intros [Hx Hn] [->|Ha] [->|Hb] Epk; try done; [destruct Hx; apply elem_of_list_fmap; eauto..|by apply IH].
Qed.
(** C55: a program that nobody loaded before is answered with exactly the accounts of the snapshot. *)
Theorem C55_first_load_complete : forall E fs0 f0 p fl c as_,
  Forall (decodable E) (AFilter [] (Some p) fl :: fs0) -> add_filters E fstore_empty fs0 = Done f0 -> raw_filter (AFilter [] (Some p) fl) ->
  contains_filter f0 (AFilter [] (Some p) fl) = false ->
  NoDup (map d_pubkey as_) -> (forall a, a ∈ as_ -> honest E a /\ alive a /\ selects E (AFilter [] (Some p) fl) a) ->
  exists x l, od_run E (mem_iface E) (od_new store_empty f0) (solo p fl c as_) = Some x /\ x.2 = [PDone (ROk l)] /\ NoDup (map d_pubkey l) /\
    (forall b, b ∈ l -> exists a, a ∈ as_ /\ same_account E b a) /\ (forall a, a ∈ as_ -> exists b, b ∈ l /\ same_account E b a).
Proof.
  intros E fs0 f0 p fl c as_ [Hd Hd0]%Forall_cons Hf0 Hraw Hno Hnd Has. set (pf := AFilter [] (Some p) fl) in *.
  assert (forall a, a ∈ as_ -> d_owner a = p /\ meets E fl a) as Hmeet.
  { intros a Ha. destruct (Has a Ha) as (_ & _ & [Hx|[Hx Hy]]); [by apply elem_of_nil in Hx|]. simpl in Hx, Hy. split; [by injection Hx|]. intros l x -> Hin. destruct (Hy l eq_refl) as (d & H1 & H2). eauto. }
  assert (exists f, add_filter E f0 pf = Done f /\ (forall a, a ∈ as_ -> fl_sat (mem_filt E f) a = true) /\ contains_filter f pf = true) as (f & Hf & Hsat & Hcf).
  { assert (Forall (decodable E) (fs0 ++ [pf])) as Hall by (apply Forall_app; split; [done|by repeat constructor]).
    destruct (add_filters_rep E _ _ _ (rep_empty E) Hall) as (f & Hadd & _).
    pose proof Hadd as Hadd'. rewrite add_filters_app, Hf0 in Hadd'. simpl in Hadd'. destruct (add_filter E f0 pf) as [f1|] eqn:H1; [|done]. simpl in Hadd'. injection Hadd' as ->. exists f. split; [done|]. split.
    - intros a Ha. destruct (Has a Ha) as ((d & Hpl & _) & _ & Hsel). destruct (satisfies_correct E (fs0 ++ [pf]) a d Hall Hpl) as (f' & b & H2 & H3 & H4). rewrite Hadd in H2. injection H2 as <-.
      unfold mem_filt. simpl. rewrite H3. apply H4. exists pf. split; [set_solver|done].
    - by eapply C04_added_raw_filter_contained_partial. }
  set (F := mem_filt E f) in *. set (h := map (fun a : acct => (F, OInit a)) as_). set (L := Ledger as_ None ∅ [] None None).
  assert (orderly h L) as Ho by apply loads_orderly. assert (forall a, delivered_in h a -> a ∈ as_) as Hdel by (intros a (G & o & Hin & Hdl); by eapply loads_in).
  destruct (run_total E h store_empty) as [st Hrun]; [apply st_ok_empty|intros i b; simpl; by rewrite lookup_nil| |].
  { intros G o (a & [= -> ->] & Ha)%elem_of_list_fmap. simpl. destruct (Has a Ha) as ((d & Hpl & _) & _). by exists d. }
  assert (st_ok st) as Hok by (eapply run_ok; [apply st_ok_empty|done]).
  assert (exists l, get_program_accounts E F st p fl c = Done (ROk l)) as [l Hl].
  { destruct (gpa_total E F st p fl c Hok) as [r Hr].
    - eapply (st_all_run E (usable E)); [apply st_ok_empty|intros i b; simpl; by rewrite lookup_nil| |exact Hrun]. intros G o a Hin Hdl. destruct (loads_in _ _ _ _ _ Hin Hdl) as [_ Ha].
      destruct (Has a Ha) as ((d & Hpl & _) & _). by exists d.
    - intros l ->. apply Hd. done.
    - revert Hr. unfold get_program_accounts. change (fl_contains F (AFilter [] (Some p) fl)) with (contains_filter f pf). rewrite Hcf.
      destruct (st_owners st !! p) as [s|]; [|eauto]. destruct (gpa_loop _ _ _ _ _ _) as [l|]; [|done]. simpl. eauto. }
  destruct (C90_queries_show_ledger E h L st F p fl c l) as (H1 & H2 & H3); try done.
  - intros pk. left. split.
    + intros G o G' o' a Hin Hin' Hdl _. destruct (loads_in _ _ _ _ _ Hin' Hdl) as [_ Ha]. apply elem_of_list_fmap in Hin as (b & [= -> ->] & _). by apply Hsat.
    + left. intros G o a Hin Hdl _. destruct (loads_in _ _ _ _ _ Hin Hdl) as [_ Ha]. by destruct (Has a Ha) as (_ & ? & _).
  - intros x y z Hx Hy Hz _ _ _ _ _ _ _ _. destruct (Hmeet x (Hdel x Hx)), (Hmeet y (Hdel y Hy)). congruence.
  - intros x y Hx Hy _ _ Hn. destruct Hn. by destruct (Has y (Hdel y Hy)) as (_ & ? & _).
  - intros h1 G a h2 G' o b Hh Hin Hdl Epk. left.
    assert (a ∈ as_) as Ha by (apply Hdel; exists G, (OInit a); split; [unfold delivered_in; rewrite Hh; set_solver|done]).
    assert (b ∈ as_) as Hb by (apply Hdel; exists G', o; split; [rewrite Hh; set_solver|done]). destruct (Hmeet a Ha), (Hmeet b Hb). congruence.
  - intros G o a G' o' b Hin Hin' Hdl Hdl' Epk _ _. destruct (loads_in _ _ _ _ _ Hin Hdl) as [_ Ha], (loads_in _ _ _ _ _ Hin' Hdl') as [_ Hb]. by apply (same_pubkey as_).
  - intros a Ha. by destruct (Has a (Hdel a Ha)).
  - eexists _, l. split; [|split; [|split; [exact H1|split]]].
    + unfold solo. rewrite od_run_app. cbn -[contains_filter]. change (prog_filter p fl) with pf. rewrite Hno. simpl. change (prog_filter p fl) with pf. rewrite Hf. simpl.
      rewrite od_run_app. unfold set_filters, add_log, set_gpa; simpl; erewrite saves; [|exact Hrun]. simpl. unfold p_read. simpl. fold (mem_filt E f). fold F. rewrite Hl. reflexivity.
    + reflexivity.
    + intros b Hb. destruct (H2 b Hb) as (a & [[[Ha|[Ha _]] _] _] & Hsm & _); [by exists a|]. by apply elem_of_nil in Ha.
    + intros a Ha. destruct (Hmeet a Ha). apply H3; [|by destruct (Has a Ha) as (_ & ? & _)|done..]. split; [split; [by left|done]|].
      intros b [[Hb|[Hb _]] Epk]; [|by apply elem_of_nil in Hb]. rewrite (same_pubkey as_ b a); [apply version_le_refl|done..].
Qed.
Print Assumptions C55_first_load_complete.
Definition two7 : list acct := [mk_acct 5 7 1 (bs [1;8]) 10 1; mk_acct 6 7 2 (bs [1;9;9]) 12 1].
Definition cond1 : option (list cond) := Some [MemcmpC (Memcmp 0 (MBytes (bs [1])))].
Example C55_first_load_complete_example :
  Forall (decodable ext_sample) [AFilter [] (Some 7) cond1; AFilter [9] (Some 8) None] /\
  (exists f0, add_filters ext_sample fstore_empty [AFilter [9] (Some 8) None] = Done f0 /\ contains_filter f0 (AFilter [] (Some 7) cond1) = false /\
     exists x, od_run ext_sample (mem_iface ext_sample) (od_new store_empty f0) (solo 7 cond1 Confirmed two7) = Some x /\ x.2 = [PDone (ROk two7)]) /\
  raw_filter (AFilter [] (Some 7) cond1) /\ NoDup (map d_pubkey two7) /\
  forall a, a ∈ two7 -> honest ext_sample a /\ alive a /\ selects ext_sample (AFilter [] (Some 7) cond1) a.
Proof.
  split. { repeat constructor; intros l [= <-]; repeat constructor; vm_compute; eauto. }
  split. { eexists. split; [vm_compute; reflexivity|]. split; [by vm_compute|]. eexists. split; [vm_compute; reflexivity|done]. }
  split; [intros l [= <-]; repeat constructor; by eexists|]. split; [apply (bool_decide_eq_true_1 (NoDup (map d_pubkey two7))); by vm_compute|].
  intros a Ha. unfold two7 in Ha. rewrite !elem_of_cons, elem_of_nil in Ha.
  destruct Ha as [->|[->|[]]]; (split; [eexists; split; [reflexivity|by vm_compute]|split; [by vm_compute|right; split; [done|]; intros l [= <-]; eexists; split; [reflexivity|]; intros x ->%elem_of_list_singleton; eexists (bs [1]), [], _; split; [reflexivity|]; split; [reflexivity|done]]]).
Qed.
Example C55_answers_from_storage_example :
  let x := OnDemandProps.sys_of (take 10 OnDemandProps.load7) in
  asks_prog (PRead 7 None Finalized) 7 None Finalized /\ x.2 !! 0%nat = Some (PRead 7 None Finalized) /\
  od_step OnDemandProps.Em OnDemandProps.Im x (EAdv 0 IGo) = Some (OnDemandProps.sys_of (take 11 OnDemandProps.load7)) /\
  (let y := OnDemandProps.sys_of (take 6 (OnDemandProps.one5 0)) in asks_acc (ARead 5 Finalized) 5 Finalized /\ y.2 !! 0%nat = Some (ARead 5 Finalized) /\
     od_step OnDemandProps.Em OnDemandProps.Im y (EAdv 0 IGo) = Some (OnDemandProps.sys_of (OnDemandProps.one5 0))).
Proof. split; [unfold asks_prog; naive_solver|]. split; [by vm_compute|]. split; [by vm_compute|]. split; [unfold asks_acc; naive_solver|]. split; by vm_compute. Qed.

(** FINDING (C54, C55): an account that no filter covers is never found on demand, whatever the source delivers for it: the store refuses it because the
    subscription of an account adds no filter. *)
Definition solo_account (pk : pubkey) (c : commitment) (as_ : list acct) : list (ev store) :=
  [EGet pk c; EAdv 0 IGo; EAdv 0 (ISub true)] ++ map (fun a => EAdv 0 (ISave a)) as_ ++ [EAdv 0 (ISaved true); EAdv 0 IGo; EAdv 0 IGo].
Theorem C55_account_loads_in_vain_finding : forall E f0 pk c as_,
  contains_account f0 pk = false -> (forall a, a ∈ as_ -> satisfies E f0 a = Done false) ->
  exists x, od_run E (mem_iface E) (od_new store_empty f0) (solo_account pk c as_) = Some x /\ x.2 = [ADone (ROk None)] /\ od_st x.1 = store_empty.
Proof.
  intros E f0 pk c as_ Hno Has.
  assert (forall A pa G pg lg, od_run E (mem_iface E) (OD store_empty (Some f0) A pa G pg lg, [ASave pk c]) (map (fun a => EAdv 0 (ISave a)) as_) =
    Some (OD store_empty (Some f0) A pa G pg lg, [ASave pk c])) as Hsv.
  { intros A pa G pg lg. induction as_ as [|a as_ IH]; [done|]. simpl. unfold save_one. simpl. fold (mem_filt E f0). unfold init_account.
    assert (update_account (mem_filt E f0) store_empty a Finalized = Done (store_empty, false)) as ->.
    { apply (C19_unwanted_leave_no_trace E (mem_filt E f0) store_empty a Finalized); [by exists []|intros [j Hj]; simpl in Hj; by rewrite lookup_empty in Hj|]. unfold mem_filt. simpl. by rewrite (Has a ltac:(left)). }
    simpl. apply IH. intros b Hb. apply Has. by right. }
  assert (get_account store_empty pk c = Done (ROk None)) as Hg by (rewrite get_account_total by apply st_ok_empty; unfold version_at; simpl; by rewrite lookup_empty).
  eexists. unfold solo_account. rewrite od_run_app. cbn -[contains_account get_account]. rewrite Hg. cbn -[contains_account get_account bool_decide].
  rewrite bool_decide_eq_false_2 by set_solver. rewrite Hno. cbn -[get_account od_run]. unfold add_log, set_acc. cbn -[get_account od_run].
  rewrite od_run_app, Hsv. cbn -[get_account]. unfold a_read. cbn -[get_account]. rewrite Hg. done.
Qed.
Print Assumptions C55_account_loads_in_vain_finding.
Example C55_account_loads_in_vain_example :
  contains_account fstore_empty 5 = false /\ satisfies ext_sample fstore_empty (mk_acct 5 7 1 (bs [1;8]) 10 1) = Done false /\ alive (mk_acct 5 7 1 (bs [1;8]) 10 1).
Proof. split; [by vm_compute|]. split; by vm_compute. Qed.

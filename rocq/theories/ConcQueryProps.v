(** Theorems about calls that do not overlap (C86) and about program queries that run while other calls run (C87, C88). *)
From Verif Require Import Base SMap DataModel DataProps FilterModel FilterSpec FilterProps BincodeModel ByCommitModel ByCommitSpec ByCommitProofs
  StoreModel StoreSpec StoreProofs StoreSlot StoreViews StoreProps ConcModel ConcProofs ConcReads ConcProps ConcQueryModel ConcQuerySpec ConcQueryProofs ConcQueryWalk ConcSolo.

(** C86: a call that runs while nothing else runs does what the function of the sequential model does,
    panics included. *)
Theorem C86_update : forall F st a c r,
  alone F st ∅ (TUpd a c) r <-> r = ('(st', b) ← update_account F st a c; Done (st', RUpdate b)).
Proof. intros F st a c r. split; [intros H; exact (alone_fun _ _ _ _ _ H _ (solo_update F st a c))|intros ->; apply solo_update]. Qed.
Print Assumptions C86_update.
Theorem C86_slot : forall F st si c r,
  alone F st ∅ (TSlot si c) r <-> r = ('(st', l) ← process_slot F st si c; Done (st', RSlot l)).
Proof. intros F st si c r. split; [intros H; exact (alone_fun _ _ _ _ _ H _ (solo_slot F st si c))|intros ->; apply solo_slot]. Qed.
Print Assumptions C86_slot.
Theorem C86_get : forall F st pk c r,
  alone F st ∅ (TGet pk c) r <-> r = (g ← get_account st pk c; Done (st, RGet g)).
Proof. intros F st pk c r. split; [intros H; exact (alone_fun _ _ _ _ _ H _ (solo_get F st pk c))|intros ->; apply solo_get]. Qed.
Print Assumptions C86_get.
Theorem C86_query : forall E F st p fl c r,
  qalone E F st (QGpa p fl c) r <-> r = get_program_accounts E F st p fl c.
Proof. intros E F st p fl c r. split; [intros H; exact (qalone_fun _ _ _ _ _ H _ (solo_gpa E F st p fl c))|intros ->; apply solo_gpa]. Qed.
Print Assumptions C86_query.
(** So every history of the sequential model is an execution of the concurrent one. *)
Theorem C86_histories : forall E h st, run E store_empty h = Done st ->
  exists qs, qreach E qs_empty qs /\ cs_st (qs_cs qs) = st /\ cs_pend (qs_cs qs) = ∅ /\ all_returned (qs_cs qs).
Proof.
  intros E h st H. destruct (history_reach E h store_empty st [] [] H) as (outs & answers & Hr). eexists. split; [exact Hr|]. split_and!; try done.
  unfold all_returned. simpl. clear. induction outs as [|o outs IH]; [done|exact IH].
Qed.
Print Assumptions C86_histories.
Example C86_example_hyps : exists st, run ext_sample store_empty ex_store = Done st /\ is_Some (version_at st 5 Processed) /\
  (match update_account admit_all st (acc5 20 1) Confirmed with Done (st', b) => b = true /\ version_at st' 5 Confirmed = Some (acc5 20 1) | Panic => False end) /\
  update_account admit_all (Store {[ 5%N := 3%nat ]} ∅ ∅ []) (acc5 20 1) Confirmed = Panic.
Proof.
  exists (final ex_store). split; [crunch|]. split; [vm_compute; eauto|]. split; [vm_compute; done|crunch].
Qed.

(** C87: a query that runs among other calls answers with versions that the store held, at its commitment, at
    some moment between its call and its return; they are of its program and meet its conditions. *)
Theorem C87_sound : forall E Fok Aok P qs qs' j p fl c l b,
  qreach E qs_empty qs -> qs_q qs !! j = Some (QGpa p fl c) -> qworld E Fok Aok P qs qs' -> qs_q qs' !! j = Some (QEnd (ROk l)) -> b ∈ l ->
  exists x, held_between E Fok Aok P qs qs' c x /\ same_account E b x /\ d_owner x = p /\ meets E fl x /\ (fl <> None -> alive x).
Proof.
  intros E Fok Aok P qs qs' j p fl c l b Hr Hj Hw Hj' Hb. pose proof (qok_reach _ qs_empty _ cok_empty Hr) as Hc.
  destruct (walk_world E Fok Aok P qs qs qs' j p fl c _ Hc (qw_refl _ _ _ _ _ (world_first _ _ _ _ _ _ Hw)) Hj (conj eq_refl (conj eq_refl eq_refl)) Hw) as (q' & H & Hok).
  rewrite Hj' in H. injection H as <-. destruct Hok as [_ Hg]. rewrite Forall_forall in Hg. exact (Hg b Hb).
Qed.
Print Assumptions C87_sound.
(** ... each account is answered once ... *)
Theorem C87_once : forall E qs qs' j p fl c l,
  qreach E qs_empty qs -> qs_q qs !! j = Some (QGpa p fl c) -> qreach E qs qs' -> qs_q qs' !! j = Some (QEnd (ROk l)) -> NoDup (map d_pubkey l).
Proof.
  intros E qs qs' j p fl c l Hr Hj Hw%reach_world Hj'. pose proof (qok_reach _ qs_empty _ cok_empty Hr) as Hc.
  destruct (walk_world E _ _ _ qs qs qs' j p fl c _ Hc (qw_refl _ _ _ _ _ (world_first _ _ _ _ _ _ Hw)) Hj (conj eq_refl (conj eq_refl eq_refl)) Hw) as (q' & H & Hok).
  rewrite Hj' in H. injection H as <-. by destruct Hok.
Qed.
Print Assumptions C87_once.
(** ... and an account that has to be shown at every moment from the call to the return is in the answer,
    if accounts keep their owner and no filter asks for closed accounts. *)
Theorem C87_complete : forall E own_of qs qs' j p fl c l pk,
  let Aok := fun a => one_owner own_of a /\ honest E a in
  qworld E no_closed Aok any_state qs_empty qs -> qs_q qs !! j = Some (QGpa p fl c) ->
  qworld E no_closed Aok (due E p fl c pk) qs qs' -> qs_q qs' !! j = Some (QEnd (ROk l)) ->
  exists b, b ∈ l /\ d_pubkey b = pk.
Proof.
  intros E own_of qs qs' j p fl c l pk Aok Hr Hj Hw Hj'. pose proof (steady_world E own_of any_state qs_empty qs (steady_empty E own_of) Hr) as Hst.
  destruct (found_world E own_of (due E p fl c pk) p fl c pk qs qs qs' j (QGpa p fl c)) as (q' & H & _ & Hf); try done.
  - constructor. by eapply world_first.
  - rewrite Hj' in H. by injection H as <-.
Qed.
Print Assumptions C87_complete.
(** No piece of a query panics, if the accounts delivered can be uncompressed and the patterns it asks for decoded. *)
Theorem C87_no_panic : forall E qs qs' j p fl c F q,
  qworld E any_filt (usable E) any_state qs_empty qs -> qs_q qs !! j = Some (QGpa p fl c) -> (forall l, fl = Some l -> Forall (decodable_cond E) l) ->
  qworld E any_filt (usable E) any_state qs qs' -> qs_q qs' !! j = Some q -> qpiece E F (cs_st (qs_cs qs')) q <> Some Panic.
Proof.
  intros E qs qs' j p fl c F q Hr Hj Hdec Hw Hj'. pose proof (qok_reach _ qs_empty _ cok_empty (world_reach _ _ _ _ _ _ Hr)) as Hc.
  destruct (walk_world E _ _ _ qs qs qs' j p fl c _ Hc (qw_refl _ _ _ _ _ (world_first _ _ _ _ _ _ Hw)) Hj (conj eq_refl (conj eq_refl eq_refl)) Hw) as (q' & H & Hok).
  rewrite Hj' in H. injection H as <-. eapply query_nopanic.
  - eapply qok_reach; [exact Hc|by eapply world_reach].
  - assert (forall P a b, cok (qs_cs a) -> Q P (qs_cs a) -> qworld E any_filt P any_state a b -> Q P (qs_cs b)) as HQ.
    { clear. intros P a b Hc HQ Hw. induction Hw as [|qs F j cs1 qs2 _ Hs HF Hcall _ IH|qs qs1 qs2 _ Hs He _ IH]; [done|..].
      - apply IH; [by destruct (cok_step _ _ _ _ Hc Hs) as (? & [= <-] & ? & _)|by eapply step_Q].
      - apply IH; by rewrite He. }
    eapply HQ; [exact Hc| |exact Hw]. apply (HQ _ qs_empty); [exact cok_empty|apply Q_empty|exact Hr].
  - exact Hj'.
  - destruct q as [| | |p' fl' c' todo out|]; try done. simpl in Hok. destruct Hok as ((-> & -> & ->) & _ & Hb & _). done.
Qed.
Print Assumptions C87_no_panic.

(** C88: a query during which nothing is written answers what [get_program_accounts] would, in some order. *)
Theorem C88_quiet_partial : forall E Fok Aok st qs qs' j p fl c r,
  qs_q qs !! j = Some (QGpa p fl c) -> qworld E Fok Aok (fun s => cs_st (qs_cs s) = st) qs qs' -> qs_q qs' !! j = Some (QEnd r) ->
  match r with
  | ROk l => exists l', Permutation l l' /\ forall F, fl_contains F (AFilter [] (Some p) fl) = true -> get_program_accounts E F st p fl c = Done (ROk l')
  | RErr e => e = ConfigDoesnotContainRequiredFilters
  end.
Proof.
  intros E Fok Aok st qs qs' j p fl c r Hj Hw Hj'. destruct (still_world E Fok Aok st p fl c qs qs' j _ Hj (conj eq_refl (conj eq_refl eq_refl)) Hw) as (q' & H & Hs).
  rewrite Hj' in H. injection H as <-. destruct r as [l|e]; [|done]. destruct Hs as (l' & Hl & Hp). exists l'. split; [done|]. intros F HF.
  unfold get_program_accounts. rewrite HF. destruct (st_owners st !! p) as [s|] eqn:Ho.
  - unfold own in Hl. rewrite Ho in Hl. cbn [default from_option id] in Hl. by rewrite Hl.
  - unfold own in Hl. rewrite Ho in Hl. cbn [default from_option id] in Hl. rewrite elements_empty in Hl. injection Hl as <-. done.
Qed.
Print Assumptions C88_quiet_partial.
Lemma world_tracked E Fok Aok pk qs qs' : qworld E Fok Aok (fun s => tracked (cs_st (qs_cs s)) pk) qs qs' -> ctracked pk (qs_cs qs) (qs_cs qs').
Proof.
  induction 1 as [|qs F j cs1 qs2 HP Hs HF Hcall Hrest IH|qs qs1 qs2 HP Hs He Hrest IH]; [by constructor|by eapply ct_step|by rewrite <- He].
Qed.
Lemma held_shown E qs c x : qreach E qs_empty qs -> tracked (cs_st (qs_cs qs)) (d_pubkey x) -> held qs c x -> version_at (cs_st (qs_cs qs)) (d_pubkey x) c = Some x.
Proof.
  intros Hr [i Hi] [H|(p & Hp & _)]; [done|]. pose proof (co_vok _ (qok_reach _ qs_empty _ cok_empty Hr)) as Hv. pose proof (vo_disj _ _ Hv _ _ Hp). congruence.
Qed.
(** Account by account a query lies between what the store showed before its call and what it shows after its
    return, as long as the account stays in the store. *)
Theorem C88_each_account_partial : forall E Fok Aok qs0 qs qs' j p fl c l b,
  let P := fun s => tracked (cs_st (qs_cs s)) (d_pubkey b) in
  qreach E qs_empty qs0 -> qworld E Fok Aok P qs0 qs -> qs_q qs !! j = Some (QGpa p fl c) -> qworld E Fok Aok P qs qs' ->
  qs_q qs' !! j = Some (QEnd (ROk l)) -> b ∈ l ->
  (forall x, version_at (cs_st (qs_cs qs0)) (d_pubkey b) c = Some x -> version_le x b) /\
  (exists y, version_at (cs_st (qs_cs qs')) (d_pubkey b) c = Some y /\ version_le b y).
Proof.
  intros E Fok Aok qs0 qs qs' j p fl c l b P Hr0 Hw0 Hj Hw Hj' Hb. assert (qreach E qs_empty qs) as Hr by (eapply qreach_trans; [exact Hr0|by eapply world_reach]).
  destruct (C87_sound E Fok Aok P qs qs' j p fl c l b Hr Hj Hw Hj' Hb) as (x & (qm & H1 & H2 & Hx) & Hsame & _).
  assert (qreach E qs_empty qm) as Hrm by (eapply qreach_trans; [exact Hr|by eapply world_reach]).
  assert (d_pubkey x = d_pubkey b) as Hpk by (symmetry; apply Hsame).
  assert (d_slot b = d_slot x /\ d_wv b = d_wv x) as [Hsl Hwv] by (unfold same_account in Hsame; tauto).
  apply (held_shown E) in Hx; [|done|rewrite Hpk; exact (world_first _ _ _ _ _ _ H2)]. rewrite Hpk in Hx.
  assert (forall s, qreach E qs_empty s -> creach cs_empty (qs_cs s)) as Hcr.
  { intros s Hs. assert (forall a b, qreach E a b -> creach (qs_cs a) (qs_cs b)) as H; [|exact (H _ _ Hs)].
    induction 1 as [|a1 a2 a3 Hst _ IH]; [constructor|]. destruct (qstep_inv _ _ _ Hst) as [(F & k & cs1 & Hcs & ->)|[He _]]; [by eapply creach_step|by rewrite <- He]. }
  split.
  - intros x0 Hx0. assert (qworld E Fok Aok P qs0 qm) as Hw1 by (by eapply world_trans).
    destruct (C62_concurrent_views_never_go_back _ _ _ _ _ (Hcr _ Hr0) (world_tracked _ _ _ _ _ _ Hw1) Hx0) as (x' & Hx' & Hle).
    rewrite Hx in Hx'. injection Hx' as <-. unfold version_le in *. lia.
  - destruct (C62_concurrent_views_never_go_back _ _ _ _ _ (Hcr _ Hrm) (world_tracked _ _ _ _ _ _ H2) Hx) as (y & Hy & Hle).
    exists y. split; [done|]. unfold version_le in *. lia.
Qed.
Print Assumptions C88_each_account_partial.

(** Schedules: a move of the other calls under [F], a new query, a piece of query [j], another order of its walk. *)
Inductive qmove := MOther (m : thr + nat) | MCall (p : pubkey) (fl : option (list cond)) (c : commitment) | MPiece (j : nat) | MOrder (j : nat).
Definition live_only : filt := Filt (fun a => negb (is_deleted a)) (fun _ => true).
Definition qmove1 (qs : qstate) (m : qmove) : option qstate :=
  match m with
  | MOther (inl t) => match t with
             | TUpd _ _ | TSlot _ _ | TGet _ _ => Some (QS (CS (cs_st (qs_cs qs)) (cs_pend (qs_cs qs)) (cs_thr (qs_cs qs) ++ [t])) (qs_q qs))
             | _ => None
             end
  | MOther (inr j) => match cs_thr (qs_cs qs) !! j with
             | Some t => match piece live_only (cs_st (qs_cs qs)) (cs_pend (qs_cs qs)) t with
                         | Some (Done (st, pd, t')) => Some (QS (CS st pd (<[j := t']> (cs_thr (qs_cs qs)))) (qs_q qs))
                         | _ => None
                         end
             | None => None
             end
  | MCall p fl c => Some (QS (qs_cs qs) (qs_q qs ++ [QGpa p fl c]))
  | MPiece j => match qs_q qs !! j with
             | Some q => match qpiece ext_sample live_only (cs_st (qs_cs qs)) q with
                         | Some (Done q') => Some (QS (qs_cs qs) (<[j := q']> (qs_q qs)))
                         | _ => None
                         end
             | None => None
             end
  | MOrder j => match qs_q qs !! j with
             | Some (QWalk p fl c todo out) => Some (QS (qs_cs qs) (<[j := QWalk p fl c (reverse todo) out]> (qs_q qs)))
             | _ => None
             end
  end.
(** Plays a schedule; stops where a delivered account fails [okA] or a state passed fails [ok]. *)
Fixpoint qplay (okA : acct -> bool) (ok : qstate -> bool) (qs : qstate) (l : list qmove) : option qstate :=
  if ok qs then
    match l with
    | [] => Some qs
    | m :: l => if match m with MOther (inl (TUpd a _)) => okA a | _ => true end
                then match qmove1 qs m with Some qs' => qplay okA ok qs' l | None => None end else None
    end
  else None.
Lemma qplay_world (okA : acct -> bool) ok (Aok : acct -> Prop) (P : qstate -> Prop) (Fok : filt -> Prop) l qs qs' : Fok live_only ->
  (forall a, okA a = true -> Aok a) -> (forall s, ok s = true -> P s) -> qplay okA ok qs l = Some qs' -> qworld ext_sample Fok Aok P qs qs'.
Proof.
  intros HF HA HP. revert qs. induction l as [|m l IH]; simpl; intros qs; (destruct (ok qs) eqn:Hok; [|done]); [intros [= <-]; constructor; auto|].
  destruct (match m with MOther (inl (TUpd a _)) => okA a | _ => true end) eqn:Hm; [|done].
  destruct (qmove1 qs m) as [qs1|] eqn:H1; [|done]. intros H. destruct m as [[t|j]|p fl c|j|j]; cbn [qmove1] in H1.
  - assert (cstep (qs_cs qs) live_only (length (cs_thr (qs_cs qs))) (Done (qs_cs qs1)) /\ qs1 = QS (qs_cs qs1) (qs_q qs) /\ cs_thr (qs_cs qs1) = cs_thr (qs_cs qs) ++ [t]) as (Hs & He & Ht).
    { destruct t; try done; injection H1 as <-; (split; [apply cs_call; [by apply lookup_ge_None_2|done|done]|done]). }
    rewrite He in H. eapply qw_other; [by apply HP|exact Hs|exact HF| |by apply IH]. intros a c Ha. rewrite Ht in Ha. simplify_eq. auto.
  - destruct (cs_thr (qs_cs qs) !! j) as [t|] eqn:Hj; [|done]. destruct (piece _ _ _ t) as [[[[st pd] t']|]|] eqn:Hp; try done. injection H1 as <-.
    eapply qw_other; [by apply HP|by eapply cs_done|exact HF| |by apply IH]. intros a c Ha. apply (f_equal length) in Ha.
    simpl in Ha. rewrite insert_length, app_length in Ha. simpl in Ha. lia.
  - injection H1 as <-. eapply qw_query; [by apply HP|apply qs_call|done|by apply IH].
  - destruct (qs_q qs !! j) as [q|] eqn:Hj; [|done]. destruct (qpiece _ _ _ q) as [[q'|]|] eqn:Hp; try done. injection H1 as <-.
    eapply qw_query; [by apply HP|exact (qs_query ext_sample qs live_only j q (Done q') Hj Hp)|done|by apply IH].
  - destruct (qs_q qs !! j) as [[| | |p fl c todo out|]|] eqn:Hj; try done. injection H1 as <-.
    eapply qw_query; [by apply HP|eapply qs_shuffle; [exact Hj|]; apply reverse_Permutation|done|by apply IH].
Qed.
Definition yes {A} (_ : A) : bool := true.
Lemma qplay_reach l qs qs' : qplay yes yes qs l = Some qs' -> qreach ext_sample qs qs'.
Proof. intros H. eapply world_reach, (qplay_world yes yes any_acct any_state any_filt); [..|exact H]; done. Qed.
Definition qplayed (qs : qstate) (l : list qmove) : qstate := default qs_empty (qplay yes yes qs l).
Definition other (t : thr) (j n : nat) : list qmove := MOther (inl t) :: repeat (MOther (inr j)) n.

(** Two accounts of program 7 with versions of slot 9 finalized; then both are written in slot 10 and slot 10 is finalized while a query runs: it visits the
    first before the announcement promotes it and the second after. *)
Definition acc6 (s w : N) : acct := mk_acct 6 7 2 (bs [4]) s w.
Definition q_before : list qmove := other (TUpd (acc5 9 1) Finalized) 0 6 ++ other (TUpd (acc6 9 1) Finalized) 1 6 ++
  other (TUpd (acc5 10 1) Processed) 2 4 ++ other (TUpd (acc6 10 1) Processed) 3 4 ++ [MCall 7 None Finalized].
Definition q_torn : list qmove := repeat (MPiece 0) 4 ++ other (TSlot (SlotInfo 10 9 0) Finalized) 4 4 ++ repeat (MPiece 0) 2.
(** C88, refuted: a query that runs while slot 10 is finalized answers with account 5 as of slot 9 and
    account 6 as of slot 10, and at no moment between its call and its return does the store show those two.
    [create_snapshot] is this query. *)
Definition not_both (qs : qstate) : bool :=
  negb (bool_decide (version_at (cs_st (qs_cs qs)) 5 Finalized = Some (acc5 9 1)) && bool_decide (version_at (cs_st (qs_cs qs)) 6 Finalized = Some (acc6 10 1))).
Theorem C88_one_moment_refuted : exists qs qs' l a b, qreach ext_sample qs_empty qs /\ qs_q qs !! 0%nat = Some (QGpa 7 None Finalized) /\
  qworld ext_sample any_filt any_acct (fun s => ~ (held s Finalized a /\ held s Finalized b)) qs qs' /\
  qs_q qs' !! 0%nat = Some (QEnd (ROk l)) /\ all_returned (qs_cs qs') /\ l = [a; b] /\
  version_at (cs_st (qs_cs qs)) (d_pubkey b) Finalized = Some (acc6 9 1) /\ version_at (cs_st (qs_cs qs')) (d_pubkey a) Finalized = Some (acc5 10 1).
Proof.
  exists (qplayed qs_empty q_before), (qplayed (qplayed qs_empty q_before) q_torn), [acc5 9 1; acc6 10 1], (acc5 9 1), (acc6 10 1).
  split; [apply (qplay_reach q_before); crunch|]. split; [crunch|]. split.
  - apply (qplay_world yes (fun s => not_both s && bool_decide (cs_pend (qs_cs s) = ∅)) any_acct _ any_filt q_torn); [done|done| |crunch].
    intros s [H1 H2%bool_decide_eq_true]%andb_prop [[Ha|(p & Hp & _)] [Hb|(p' & Hp' & _)]];
      try (rewrite H2, lookup_empty in Hp; done); try (rewrite H2, lookup_empty in Hp'; done).
    unfold not_both in H1. apply negb_true_iff, andb_false_iff in H1 as [H1|H1]; apply bool_decide_eq_false in H1; [exact (H1 Ha)|exact (H1 Hb)].
  - split_and!; [crunch|unfold all_returned; crunch|done|crunch|crunch].
Qed.
Print Assumptions C88_one_moment_refuted.

(** The same execution meets the hypotheses of C87 and of C88's account-wise bounds. *)
Definition own7 (pk : pubkey) : pubkey := 7.
Definition ok_acct (a : acct) : bool := bool_decide (d_owner a = 7) && match d_data a with DRaw _ => true | _ => false end.
Lemma ok_acct_spec a : ok_acct a = true -> (one_owner own7 a /\ honest ext_sample a) /\ usable ext_sample a.
Proof.
  unfold ok_acct. intros [H1%bool_decide_eq_true H2]%andb_prop. destruct (d_data a) as [d| |] eqn:Hd; try done.
  assert (plain ext_sample a d) as Hpl by (unfold plain; rewrite Hd; done). split; [|by exists d]. split; [by intros _|]. exists d. split; [done|]. by rewrite Hd.
Qed.
Lemma live_only_ok : no_closed live_only.
Proof. intros a Ha. simpl. apply negb_false_iff. unfold is_deleted, alive in *. apply N.eqb_eq. lia. Qed.
Definition due5 (qs : qstate) : bool :=
  match version_at (cs_st (qs_cs qs)) 5 Finalized with Some x => (0 <? d_lamports x)%N && bool_decide (d_owner x = 7) | None => false end.
Lemma due5_spec qs : due5 qs = true -> due ext_sample 7 None Finalized 5 qs /\ tracked (cs_st (qs_cs qs)) 5.
Proof.
  unfold due5. destruct (version_at _ 5 Finalized) as [x|] eqn:Hx; [|done]. intros [H1%N.ltb_lt H2%bool_decide_eq_true]%andb_prop. split.
  - exists x. split_and!; try done.
  - apply version_at_inv in Hx as (i & b & Hi & _). by exists i.
Qed.
Example C87_example_hyps : exists qs qs' l, let Aok := fun a => one_owner own7 a /\ honest ext_sample a in
  qworld ext_sample no_closed Aok any_state qs_empty qs /\ qworld ext_sample any_filt (usable ext_sample) any_state qs_empty qs /\
  qs_q qs !! 0%nat = Some (QGpa 7 None Finalized) /\
  qworld ext_sample no_closed Aok (due ext_sample 7 None Finalized 5) qs qs' /\ qworld ext_sample any_filt (usable ext_sample) any_state qs qs' /\
  qs_q qs' !! 0%nat = Some (QEnd (ROk l)) /\ map d_pubkey l = [5; 6].
Proof.
  exists (qplayed qs_empty q_before), (qplayed (qplayed qs_empty q_before) q_torn), [acc5 9 1; acc6 10 1].
  split; [apply (qplay_world ok_acct yes _ _ _ q_before); [apply live_only_ok|intros a H; exact (proj1 (ok_acct_spec a H))|done|crunch]|].
  split; [apply (qplay_world ok_acct yes _ _ _ q_before); [done|intros a H; exact (proj2 (ok_acct_spec a H))|done|crunch]|].
  split; [crunch|].
  split; [apply (qplay_world ok_acct due5 _ _ _ q_torn); [apply live_only_ok|intros a H; exact (proj1 (ok_acct_spec a H))|intros s H; exact (proj1 (due5_spec s H))|crunch]|].
  split; [apply (qplay_world ok_acct yes _ _ _ q_torn); [done|intros a H; exact (proj2 (ok_acct_spec a H))|done|crunch]|]. split; crunch.
Qed.
#[local] Instance status_eq_dec : EqDecision status.
Proof. solve_decision. Defined.
#[local] Instance bycom_eq_dec : EqDecision bycom.
Proof. solve_decision. Defined.
#[local] Instance store_eq_dec : EqDecision store.
Proof. solve_decision. Defined.
(** A query during which a delivery is on its way but nothing is written. *)
Definition q_quiet : list qmove := repeat (MPiece 0) 3 ++ [MOther (inl (TUpd (acc5 11 1) Processed)); MOther (inr 4%nat); MOrder 0] ++ repeat (MPiece 0) 3.
Example C88_example_hyps : exists qs qs' l, qreach ext_sample qs_empty qs /\ qs_q qs !! 0%nat = Some (QGpa 7 None Finalized) /\
  qworld ext_sample any_filt any_acct (fun s => cs_st (qs_cs s) = cs_st (qs_cs qs)) qs qs' /\
  qworld ext_sample any_filt any_acct (fun s => tracked (cs_st (qs_cs s)) 5) qs qs' /\
  qs_q qs' !! 0%nat = Some (QEnd (ROk l)) /\ map d_pubkey l = [6; 5] /\
  match get_program_accounts ext_sample live_only (cs_st (qs_cs qs)) 7 None Finalized with Done (ROk l') => map d_pubkey l' = [5; 6] | _ => False end.
Proof.
  exists (qplayed qs_empty q_before), (qplayed (qplayed qs_empty q_before) q_quiet), [acc6 9 1; acc5 9 1].
  split; [apply (qplay_reach q_before); crunch|]. split; [crunch|]. split.
  - apply (qplay_world yes (fun s => bool_decide (cs_st (qs_cs s) = cs_st (qs_cs (qplayed qs_empty q_before)))) _ _ _ q_quiet);
      [done|done|intros s H; by apply bool_decide_eq_true in H|crunch].
  - split_and!; [|crunch|crunch|vm_compute; done].
    apply (qplay_world yes due5 _ _ _ q_quiet); [done|done|intros s H; exact (proj2 (due5_spec s H))|crunch].
Qed.

(** Program queries are complete although accounts change their owner (C22). *)
From Verif Require Import Base SMap DataModel DataProps FilterModel FilterProps BincodeModel ByCommitModel ByCommitSpec ByCommitProofs
  StoreModel StoreSpec StoreProofs StoreSlot StoreViews StoreHist StoreProps BincodeProofs SnapshotProps OwnerSpec OwnerProofs.

(** C22, second proved part: the answer is complete, at every commitment, if live accounts do not return to an earlier owner, closed
    versions have another owner than live ones, the filters admit the live accounts delivered, and deliveries that change the owner come in time.
    Missing: histories without these conditions, where it is false. *)
Theorem C22_owner_changes_partial : forall E h st F p fl c l a,
  run E store_empty h = Done st ->
  owners_settle (delivered_in h) -> closed_apart (delivered_in h) -> run_in_time E h ->
  (forall F o a, (F, o) ∈ h -> delivers o a -> (alive a -> fl_sat F a = true) /\ honest E a) ->
  get_program_accounts E F st p fl c = Done (ROk l) ->
  version_at st (d_pubkey a) c = Some a -> alive a -> d_owner a = p -> meets E fl a ->
  exists b, b ∈ l /\ same_account E b a.
Proof.
  intros E h st F p fl c l a Hrun HO HC Ht Hh Hl Hv Hal Ho Hm.
  destruct (linvs_run (delivered_in h) HO HC E h st) as (Hok & _ & HI); [|done|done|].
  { intros F0 o a0 Hin Hd. split; [by exists F0, o|]. intros H. by destruct (Hh F0 o a0 Hin Hd) as [? _]; auto. }
  assert (st_all (honest E) st) as HH.
  { eapply st_all_run; [apply st_ok_empty| | |exact Hrun].
    - intros i b. simpl. by rewrite lookup_nil.
    - intros F0 o a0 Hin Hd. by destruct (Hh F0 o a0 Hin Hd) as (_ & ?). }
  apply version_at_inv in Hv as (i & b & Hi & Hb & Hg). apply gpa_inv in Hl as (_ & Hl & Hdef).
  pose proof (so_bc _ Hok _ _ Hb) as Hbc.
  assert (i ∈ own (st_owners st) p) as Hown by (rewrite <- Ho; exact (HI _ _ _ _ Hi Hb (inL_get _ _ _ Hbc Hg) Hal)).
  destruct (Hdef _ Hown) as (b' & l' & Hb' & Hl'). rewrite Hb in Hb'. injection Hb' as <-.
  destruct (gpa_entry_complete _ _ _ _ _ _ _ Hl' Hg Ho Hm) as (x & -> & Hs).
  - exact (bc_all_get _ b c a Hbc (HH _ _ Hb) Hg).
  - done.
  - exists x. split; [|done]. apply Hl. exists i, b, [x]. split_and!; try done. left.
Qed.
Print Assumptions C22_owner_changes_partial.

(** Deciding the conditions for a given history. *)
Definition in_timeb (st : store) (a : acct) (c : commitment) : bool :=
  match version_at st (d_pubkey a) Processed with
  | None => true
  | Some p =>
      bool_decide (d_owner a = d_owner p) || bool_decide (applied_at st a c = Processed) ||
      match version_at st (d_pubkey a) (applied_at st a c) with
      | Some y => negb (bool_decide (applied_at st a c = Finalized)) || bool_decide (d_owner a = d_owner y) || newer (Some y) a
      | None => false
      end
  end.
Fixpoint in_times (E : ext) (st : store) (h : list (filt * op)) : bool :=
  match h with
  | [] => true
  | (F, o) :: h =>
      match o with OUpdate a c => in_timeb st a c | OInit a => in_timeb st a Finalized | OLoad _ _ => false | _ => true end &&
      match step E F st o with Done (st', _) => in_times E st' h | Panic => true end
  end.
Lemma in_timeb_spec st a c : in_timeb st a c = true -> in_time st a c.
Proof.
  unfold in_timeb, in_time. intros H p Hp. rewrite Hp in H. apply orb_prop in H as [[H|H]%orb_prop|H].
  - left. by apply bool_decide_eq_true in H.
  - right; left. by apply bool_decide_eq_true in H.
  - destruct (version_at st (d_pubkey a) (applied_at st a c)) as [y|] eqn:Hy; [|done]. right; right. exists y. split; [done|]. intros Hf.
    apply orb_prop in H as [[H|H]%orb_prop|H].
    + apply negb_true_iff, bool_decide_eq_false in H. done.
    + left. by apply bool_decide_eq_true in H.
    + right. eapply newer_spec; [exact H|done].
Qed.
Lemma in_times_spec E st h h1 F o h2 st1 : in_times E st h = true -> h = h1 ++ (F, o) :: h2 -> run E st h1 = Done st1 -> op_in_time F st1 o.
Proof.
  revert st h1. induction h as [|[F0 o0] h IH]; intros st h1; simpl.
  - intros _ H. by destruct h1.
  - intros [Ha Hb]%andb_prop Heq Hr. destruct h1 as [|[F1 o1] h1]; simpl in Heq, Hr.
    + injection Heq as <- <- <-. injection Hr as <-. destruct o0; try done; simpl; by apply in_timeb_spec.
    + injection Heq as <- <- Heq. destruct (step E F0 st o0) as [[st' r]|]; [|done]. simpl in Hr. by eapply IH.
Qed.

(** An account that moves from program 7 to program 8 in slot 11 while slot 10 is confirmed and finalized, is closed in slot 13, and another one that stays. *)
Definition move_hist : list (filt * op) :=
  [ upd (mk_acct 5 7 1 (bs [1]) 9 1) Finalized; upd (mk_acct 6 7 4 (bs [2]) 10 2) Processed; slt 10 9 Processed; upd (mk_acct 5 7 1 (bs [1;8]) 10 3) Processed;
    slt 11 10 Processed; upd (mk_acct 5 8 1 (bs [3]) 11 4) Processed; slt 10 9 Confirmed; slt 11 10 Confirmed; slt 11 10 Finalized;
    slt 13 11 Processed; upd (mk_acct 6 0 0 [] 13 5) Processed; upd (mk_acct 5 8 2 (bs [3;4]) 13 6) Processed ].
Definition moved : list acct := [mk_acct 5 7 1 (bs [1]) 9 1; mk_acct 6 7 4 (bs [2]) 10 2; mk_acct 5 7 1 (bs [1;8]) 10 3; mk_acct 5 8 1 (bs [3]) 11 4;
  mk_acct 6 0 0 [] 13 5; mk_acct 5 8 2 (bs [3;4]) 13 6].
Definition settleb (l : list acct) : bool :=
  forallb (fun x => forallb (fun y => forallb (fun z =>
    negb (bool_decide (d_pubkey x = d_pubkey y) && bool_decide (d_pubkey y = d_pubkey z) && (0 <? d_lamports x) && (0 <? d_lamports y) && (0 <? d_lamports z) &&
          (d_slot x <=? d_slot y) && (d_slot y <=? d_slot z) && bool_decide (d_owner x = d_owner z)) || bool_decide (d_owner y = d_owner x)) l) l) l.
Definition apartb (l : list acct) : bool :=
  forallb (fun x => forallb (fun y => negb (bool_decide (d_pubkey x = d_pubkey y) && (0 <? d_lamports x) && (d_lamports y =? 0)) || negb (bool_decide (d_owner x = d_owner y))) l) l.
Lemma settleb_spec l (D : acct -> Prop) : settleb l = true -> (forall a, D a -> a ∈ l) -> owners_settle D.
Proof.
  intros H HD x y z Hx%HD Hy%HD Hz%HD E1 E2 A1 A2 A3 L1 L2 Ho. unfold settleb in H.
  rewrite forallb_forall in H. specialize (H x (proj1 (elem_of_list_In _ _) Hx)). rewrite forallb_forall in H. specialize (H y (proj1 (elem_of_list_In _ _) Hy)).
  rewrite forallb_forall in H. specialize (H z (proj1 (elem_of_list_In _ _) Hz)). apply orb_prop in H as [H|H]; [|by apply bool_decide_eq_true in H].
  unfold alive in *. apply negb_true_iff in H. rewrite !bool_decide_true in H by done.
  rewrite (proj2 (N.ltb_lt _ _) A1), (proj2 (N.ltb_lt _ _) A2), (proj2 (N.ltb_lt _ _) A3), (proj2 (N.leb_le _ _) L1), (proj2 (N.leb_le _ _) L2) in H. done.
Qed.
Lemma apartb_spec l (D : acct -> Prop) : apartb l = true -> (forall a, D a -> a ∈ l) -> closed_apart D.
Proof.
  intros H HD x y Hx%HD Hy%HD E1 A1 A2 Ho. unfold apartb in H.
  rewrite forallb_forall in H. specialize (H x (proj1 (elem_of_list_In _ _) Hx)). rewrite forallb_forall in H. specialize (H y (proj1 (elem_of_list_In _ _) Hy)).
  unfold alive in *. assert (d_lamports y = 0) as Hz by lia. rewrite !bool_decide_true in H by done. rewrite (proj2 (N.ltb_lt _ _) A1), Hz in H. done.
Qed.
Lemma moved_in a : delivered_in move_hist a -> a ∈ moved.
Proof.
  intros (F & o & Hin & Hd). unfold move_hist, upd, slt in Hin. rewrite !elem_of_cons, elem_of_nil in Hin. unfold moved. rewrite !elem_of_cons.
  destruct_or?; simplify_eq; simpl in Hd; try done; subst a; tauto.
Qed.
Example C22_owner_example_hyps : exists st l, run ext_sample store_empty move_hist = Done st /\
  owners_settle (delivered_in move_hist) /\ closed_apart (delivered_in move_hist) /\ run_in_time ext_sample move_hist /\
  (forall F o a, (F, o) ∈ move_hist -> delivers o a -> (alive a -> fl_sat F a = true) /\ honest ext_sample a) /\
  get_program_accounts ext_sample admit_all st 8 None Finalized = Done (ROk l) /\ l = [mk_acct 5 8 1 (bs [3]) 11 4] /\
  version_at st 5 Finalized = Some (mk_acct 5 8 1 (bs [3]) 11 4) /\ version_at st 6 Finalized = Some (mk_acct 6 7 4 (bs [2]) 10 2).
Proof.
  exists (final move_hist), [mk_acct 5 8 1 (bs [3]) 11 4]. split; [crunch|]. split; [apply (settleb_spec moved); [crunch|apply moved_in]|].
  split; [apply (apartb_spec moved); [crunch|apply moved_in]|].
  split; [intros h1 F o h2 st1 Heq Hr; apply (in_times_spec ext_sample store_empty move_hist h1 F o h2 st1); [crunch|done|done]|].
  split; [|split_and!; [crunch|crunch|crunch|crunch]].
  intros F o a Hin Hd. unfold move_hist, upd, slt in Hin. rewrite !elem_of_cons, elem_of_nil in Hin.
  destruct_or?; simplify_eq; simpl in Hd; try done; subst a; (split; [by intros _|eexists; split; [reflexivity|crunch]]).
Qed.

(** Neither condition on the owners can be left out.  An account of program 7 that moves to program 8 and back: when the
    version of program 8 is finalized it is taken out of the set of program 7, where it is by now. *)
Definition back_hist : list (filt * op) :=
  [ upd (mk_acct 5 7 1 [] 9 1) Finalized; slt 10 9 Processed; upd (mk_acct 5 8 1 [] 10 2) Processed; slt 11 10 Processed; upd (mk_acct 5 7 1 [] 11 3) Processed; slt 10 9 Finalized ].
Theorem C22_owner_returns_refuted : exists h st a,
  run ext_sample store_empty h = Done st /\ run_in_time ext_sample h /\ closed_apart (delivered_in h) /\ (forall F o a, (F, o) ∈ h -> delivers o a -> fl_sat F a = true) /\
  get_account st (d_pubkey a) Processed = Done (ROk (Some a)) /\ get_program_accounts ext_sample admit_all st (d_owner a) None Processed = Done (ROk []).
Proof.
  exists back_hist, (final back_hist), (mk_acct 5 7 1 [] 11 3). split; [crunch|].
  split; [intros h1 F o h2 st1 Heq Hr; apply (in_times_spec ext_sample store_empty back_hist h1 F o h2 st1); [crunch|done|done]|].
  split; [apply (apartb_spec [mk_acct 5 7 1 [] 9 1; mk_acct 5 8 1 [] 10 2; mk_acct 5 7 1 [] 11 3]); [crunch|]|split; [|split; crunch]].
  - intros a (F & o & Hin & Hd). unfold back_hist, upd, slt in Hin. rewrite !elem_of_cons, elem_of_nil in Hin. rewrite !elem_of_cons.
    destruct_or?; simplify_eq; simpl in Hd; try done; subst a; tauto.
  - intros F o a Hin Hd. unfold back_hist, upd, slt in Hin. rewrite !elem_of_cons, elem_of_nil in Hin. destruct_or?; simplify_eq; done.
Qed.
Print Assumptions C22_owner_returns_refuted.
(** An account that is closed (and so belongs to the system program, 0) and funded again, now owned by the system program itself: it is never
    put into the set of the system program. *)
Definition refund_hist : list (filt * op) :=
  [ upd (mk_acct 5 7 1 [] 9 1) Processed; slt 10 9 Processed; upd (mk_acct 5 0 0 [] 10 2) Processed; slt 11 10 Processed; upd (mk_acct 5 0 1 [] 11 3) Processed ].
Theorem C22_refunded_refuted : exists h st a,
  run ext_sample store_empty h = Done st /\ run_in_time ext_sample h /\ owners_settle (delivered_in h) /\ (forall F o a, (F, o) ∈ h -> delivers o a -> fl_sat F a = true) /\
  get_account st (d_pubkey a) Processed = Done (ROk (Some a)) /\ get_program_accounts ext_sample admit_all st (d_owner a) None Processed = Done (ROk []).
Proof.
  exists refund_hist, (final refund_hist), (mk_acct 5 0 1 [] 11 3). split; [crunch|].
  split; [intros h1 F o h2 st1 Heq Hr; apply (in_times_spec ext_sample store_empty refund_hist h1 F o h2 st1); [crunch|done|done]|].
  split; [apply (settleb_spec [mk_acct 5 7 1 [] 9 1; mk_acct 5 0 0 [] 10 2; mk_acct 5 0 1 [] 11 3]); [crunch|]|split; [|split; crunch]].
  - intros a (F & o & Hin & Hd). unfold refund_hist, upd, slt in Hin. rewrite !elem_of_cons, elem_of_nil in Hin. rewrite !elem_of_cons.
    destruct_or?; simplify_eq; simpl in Hd; try done; subst a; tauto.
  - intros F o a Hin Hd. unfold refund_hist, upd, slt in Hin. rewrite !elem_of_cons, elem_of_nil in Hin. destruct_or?; simplify_eq; done.
Qed.
Print Assumptions C22_refunded_refuted.

(** C29 for such histories: a snapshot of a program loses none of its finalized live accounts. *)
Theorem C29_nothing_lost_partial : forall E h st F F' p bytes l,
  run E store_empty h = Done st ->
  owners_settle (delivered_in h) -> closed_apart (delivered_in h) -> run_in_time E h ->
  (forall F o a, (F, o) ∈ h -> delivers o a -> (alive a -> fl_sat F a = true) /\ honest E a /\ acct_in_range a) ->
  get_program_accounts E F st p None Finalized = Done (ROk l) -> lenN l < 2 ^ 64 ->
  create_snapshot E F st p = Done (ROk bytes) ->
  (forall a, d_owner a = p -> fl_sat F' a = true) ->
  exists st', load_from_snapshot F' store_empty p bytes = Done (st', ROk tt) /\
    forall a c, get_account st (d_pubkey a) Finalized = Done (ROk (Some a)) -> d_owner a = p ->
      get_account st' (d_pubkey a) c = Done (ROk (Some a)).
Proof.
  intros E h st F F' p bytes l Hrun HO HC Ht Hh Hl Hlen Hsnap HF.
  destruct (C29_snapshot_round_trip_partial E h st F F' p bytes l) as (st' & Hload & _ & Hget & _); try done.
  { intros F0 o a0 Hin Hd. by destruct (Hh F0 o a0 Hin Hd) as (_ & _ & ?). }
  exists st'. split; [done|]. intros a c Hg Ho.
  assert (st_ok st) as Hok by (eapply run_ok; [apply st_ok_empty|done]).
  pose proof Hg as Hv. rewrite get_account_total in Hv by done.
  destruct (version_at st (d_pubkey a) Finalized) as [a'|] eqn:Hv'; [|by simpl in Hv]. simpl in Hv.
  destruct (0 <? d_lamports a') eqn:Hal; [|by simpl in Hv]. injection Hv as ->.
  destruct (C22_owner_changes_partial E h st F p None Finalized l a) as (b & Hb & Hs); try done.
  { intros F0 o a0 Hin Hd. by destruct (Hh F0 o a0 Hin Hd) as (? & ? & _). }
  { unfold alive. lia. }
  rewrite <- Hg. assert (d_pubkey b = d_pubkey a) as <- by apply Hs. by apply Hget.
Qed.
Print Assumptions C29_nothing_lost_partial.
Example C29_nothing_lost_example : exists st l, run ext_sample store_empty move_hist = Done st /\
  (forall F o a, (F, o) ∈ move_hist -> delivers o a -> (alive a -> fl_sat F a = true) /\ honest ext_sample a /\ acct_in_range a) /\
  get_program_accounts ext_sample admit_all st 8 None Finalized = Done (ROk l) /\ lenN l < 2 ^ 64 /\
  create_snapshot ext_sample admit_all st 8 = Done (ROk (bincode_accounts l)) /\
  get_account st 5 Finalized = Done (ROk (Some (mk_acct 5 8 1 (bs [3]) 11 4))).
Proof.
  exists (final move_hist), [mk_acct 5 8 1 (bs [3]) 11 4]. split; [crunch|]. split; [|split; [crunch|split; [done|split; crunch]]].
  intros F o a Hin Hd. unfold move_hist, upd, slt in Hin. rewrite !elem_of_cons, elem_of_nil in Hin.
  destruct_or?; simplify_eq; simpl in Hd; try done; subst a; (split; [by intros _|split; [eexists; split; [reflexivity|crunch]|by vm_compute]]).
Qed.

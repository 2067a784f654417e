(** On an orderly stream every read shows the ledger (C89). *)
From Verif Require Import Base SMap DataModel FilterModel FilterProps BincodeModel ByCommitModel ByCommitSpec ByCommitProofs
  StoreModel StoreSpec StoreProofs StoreSlot StoreViews StoreHist StoreProps LedgerSpec LedgerProofs LedgerInv LedgerSteps LedgerSlots LedgerFin LedgerRun.

(** C89: whatever the stream announced, wrote, confirmed and finalized so far, reading an account gives its newest version among those loaded and
    those written on the confirmed or finalized branch (or anywhere, for processed), or nothing if there is none or it is closed.  *)
Theorem C89_reads_show_ledger : forall E h L st pk c,
  orderly h L -> run E store_empty h = Done st -> steady h pk \/ closes_once h pk ->
  exists o, in_ledger L pk c o /\
    get_account st pk c = Done (ROk (match o with Some a => if 0 <? d_lamports a then Some a else None | None => None end)).
Proof.
  intros E h L st pk c Ho Hrun Hreg. assert (st_ok st) as Hst by (eapply run_ok; [apply st_ok_empty|done]). rewrite get_account_total by done.
  assert (exists m, regular m h pk) as [m Hm] by (destruct Hreg; [by exists false|by exists true]).
  destruct (pk_version m E pk h L st c Ho Hrun Hm) as [Hv|(Hv & _ & x & Hx & Hd)].
  - exists (version_at st pk c). split; [done|]. by destruct (version_at st pk c).
  - exists (Some x). split; [done|]. rewrite Hv. simpl. destruct (N.ltb_spec 0 (d_lamports x)); done.
Qed.
Print Assumptions C89_reads_show_ledger.
(** The version kept for the account, closed or not, if it is never dropped. *)
Theorem C89_versions_show_ledger : forall E h L st pk c,
  orderly h L -> run E store_empty h = Done st -> steady h pk -> in_ledger L pk c (version_at st pk c).
Proof. intros E h L st pk c Ho Hrun Hs. by destruct (pk_version false E pk h L st c Ho Hrun Hs) as [?|(_ & ? & _)]. Qed.
Print Assumptions C89_versions_show_ledger.

(** ** Deciding whether a stream is orderly, for the examples *)
Fixpoint branchb (n : nat) (L : ledger) (t s : N) : option bool :=
  match n with
  | O => None
  | S n' => match lg_parent L !! t with None => Some false | Some p => if t =? s then Some true else branchb n' L p s end
  end.
Lemma branchb_spec n L t s b : branchb n L t s = Some b -> if b then branch L t s else ~ branch L t s.
Proof.
  revert t. induction n as [|n IH]; intros t; simpl; [done|]. destruct (lg_parent L !! t) as [p|] eqn:Hp.
  - destruct (N.eqb_spec t s) as [->|Hne]; [intros [= <-]; apply branch_refl; by exists p|]. intros Hb. specialize (IH p Hb). destruct b; [by eapply branch_up|].
    intros [?|(p' & Hp' & H)]%branch_inv; [done|]. congruence.
  - intros [= <-] [[p Hp'] _]%branch_known. congruence.
Qed.
Definition fuel : nat := 50.
Definition committedb (L : ledger) (s : N) : option bool := match lg_conf L with None => Some false | Some t => branchb fuel L t s end.
Lemma committedb_spec L s b : committedb L s = Some b -> if b then committed L s else ~ committed L s.
Proof.
  unfold committedb. intros H. destruct (lg_conf L) as [t|] eqn:Ht; [|injection H as <-; intros (? & ? & _); congruence].
  apply branchb_spec in H. destruct b; [by exists t|]. intros (t' & Ht' & ?). congruence.
Qed.
Definition is_committed (L : ledger) (s : N) (b : bool) : bool := bool_decide (committedb L s = Some b).
Definition above_fin (L : ledger) (s : N) : bool := match lg_fin L with None => true | Some f => f <? s end.
Definition knownb (L : ledger) (s : N) : bool := bool_decide (is_Some (lg_parent L !! s)).
Definition next (skip : bool) (L : ledger) (o : op) : option ledger :=
  match o with
  | OGet _ _ | OGpa _ _ _ | OSnap _ => Some L
  | OInit a => match lg_root L with None => Some (Ledger (lg_base L ++ [a]) None (lg_parent L) (lg_writes L) (lg_conf L) (lg_fin L)) | Some _ => None end
  | OUpdate a Processed => if knownb L (d_slot a) && is_committed L (d_slot a) false
      then Some (Ledger (lg_base L) (lg_root L) (lg_parent L) (lg_writes L ++ [a]) (lg_conf L) (lg_fin L)) else None
  | OSlot si Processed =>
      if bool_decide (lg_parent L !! si_slot si = Some (si_parent si)) then if is_committed L (si_slot si) false then Some L else None
      else if negb (knownb L (si_slot si)) && (si_parent si <? si_slot si) then
        match lg_root L with
        | None => if forallb (fun a => d_slot a <? si_slot si) (lg_base L)
                  then Some (Ledger (lg_base L) (Some (si_slot si)) (<[si_slot si := si_parent si]> (lg_parent L)) (lg_writes L) (lg_conf L) (lg_fin L)) else None
        | Some r => if knownb L (si_parent si)
                    then Some (Ledger (lg_base L) (Some r) (<[si_slot si := si_parent si]> (lg_parent L)) (lg_writes L) (lg_conf L) (lg_fin L)) else None
        end else None
  | OSlot si Confirmed =>
      if bool_decide (lg_parent L !! si_slot si = Some (si_parent si)) then
        if is_committed L (si_slot si) true && above_fin L (si_slot si) then Some L
        else if is_committed L (si_slot si) false &&
          match lg_conf L with
          | None => skip || bool_decide (lg_root L = Some (si_slot si))
          | Some t => bool_decide (branchb fuel L (si_parent si) t = Some true) && (skip || (si_parent si =? t) || negb (bool_decide (lg_fin L = Some t)))
          end
        then Some (Ledger (lg_base L) (lg_root L) (lg_parent L) (lg_writes L) (Some (si_slot si)) (lg_fin L)) else None
      else None
  | OSlot si Finalized =>
      if bool_decide (lg_parent L !! si_slot si = Some (si_parent si)) && is_committed L (si_slot si) true && above_fin L (si_slot si)
      then Some (Ledger (lg_base L) (lg_root L) (lg_parent L) (lg_writes L) (lg_conf L) (Some (si_slot si))) else None
  | _ => None
  end.
Fixpoint ledger_of (skip : bool) (L : ledger) (h : list (filt * op)) : option ledger :=
  match h with [] => Some L | (_, o) :: h' => match next skip L o with Some L' => ledger_of skip L' h' | None => None end end.
Definition is_confirm (o : op) : Prop := match o with OSlot _ Confirmed => True | _ => False end.
Lemma is_committed_spec L s b : is_committed L s b = true -> if b then committed L s else ~ committed L s.
Proof. unfold is_committed. rewrite bool_decide_eq_true. apply committedb_spec. Qed.
Lemma above_fin_spec L s : above_fin L s = true -> forall f, lg_fin L = Some f -> f < s.
Proof. unfold above_fin. intros H f Hf. rewrite Hf in H. by apply N.ltb_lt. Qed.
Lemma next_event skip L o L' : next skip L o = Some L' -> event L o L' \/
  (skip = true /\ exists si, o = OSlot si Confirmed /\ lg_parent L !! si_slot si = Some (si_parent si) /\ ~ committed L (si_slot si) /\
     (forall t, lg_conf L = Some t -> branch L (si_slot si) t) /\ L' = Ledger (lg_base L) (lg_root L) (lg_parent L) (lg_writes L) (Some (si_slot si)) (lg_fin L)).
Proof.
  destruct o as [a c|a|pk c|p fl c|si c|p|p b]; cbn -[branchb]; try (intros [= <-]; left; constructor).
  - destruct c; [|done..]. destruct (knownb L (d_slot a)) eqn:Hk; [|done]. cbn -[branchb]. destruct (is_committed L (d_slot a) false) eqn:Hc; [|done]. intros [= <-].
    left. constructor; [by apply bool_decide_eq_true in Hk|by apply is_committed_spec in Hc].
  - destruct (lg_root L) as [r|] eqn:Hr; [done|]. intros [= <-]. left. by constructor.
  - destruct c.
    + case_bool_decide as Hp.
      { destruct (is_committed L (si_slot si) false) eqn:Hc; [|done]. intros [= <-]. left. constructor; [done|by apply is_committed_spec in Hc]. }
      destruct (knownb L (si_slot si)) eqn:Hk; [done|]. simpl. apply bool_decide_eq_false in Hk. destruct (N.ltb_spec (si_parent si) (si_slot si)) as [Hlt|]; [|done].
      destruct (lg_root L) as [r|] eqn:Hr.
      * destruct (knownb L (si_parent si)) eqn:Hkp; [|done]. intros [= <-]. left. rewrite <- Hr. constructor; [done|by apply bool_decide_eq_true in Hkp|done].
      * destruct (forallb _ _) eqn:Hf; [|done]. intros [= <-]. left. constructor; [done..|]. intros a Ha.
        rewrite forallb_forall in Hf. apply N.ltb_lt, Hf. by apply elem_of_list_In.
    + case_bool_decide as Hp; [|done]. destruct (is_committed L (si_slot si) true && above_fin L (si_slot si)) eqn:Hc.
      { apply andb_true_iff in Hc as [Hc Hf]. intros [= <-]. left. constructor; [done|by apply is_committed_spec in Hc|by apply above_fin_spec]. }
      destruct (is_committed L (si_slot si) false) eqn:Hn; [|done]. apply is_committed_spec in Hn. cbn -[branchb]. destruct (lg_conf L) as [t|] eqn:Ht.
      * case_bool_decide as Hb; [|done]. apply branchb_spec in Hb. cbn -[branchb]. destruct skip; cbn -[branchb].
        -- intros [= <-]. right. split; [done|]. exists si. split_and!; try done. intros t' [= <-]. by eapply branch_up.
        -- destruct ((si_parent si =? t) || negb (bool_decide (lg_fin L = Some t))) eqn:Ho; [|done]. intros [= <-]. left. constructor; [done|]. rewrite Ht. split; [done|].
           apply orb_true_iff in Ho as [Ho|Ho]; [left; by apply N.eqb_eq|right]. by apply negb_true_iff, bool_decide_eq_false in Ho.
      * destruct skip; simpl.
        -- intros [= <-]. right. split; [done|]. exists si. split_and!; done.
        -- case_bool_decide as Hr; [|done]. intros [= <-]. left. constructor; [done|]. by rewrite Ht.
    + case_bool_decide as Hp; [|done]. cbn -[branchb]. destruct (is_committed L (si_slot si) true) eqn:Hc; [|done]. cbn -[branchb]. destruct (above_fin L (si_slot si)) eqn:Hf; [|done].
      intros [= <-]. left. constructor; [done|by apply is_committed_spec in Hc|by apply above_fin_spec].
Qed.
Lemma ledger_of_orderly h L : ledger_of false no_ledger h = Some L -> orderly h L.
Proof.
  assert (forall h0 L0 h, orderly h0 L0 -> ledger_of false L0 h = Some L -> orderly (h0 ++ h) L) as H; [|apply (H [] no_ledger h); constructor].
  intros h0 L0 h1. revert h0 L0. induction h1 as [|[F o] h1 IH]; intros h0 L0 H0; simpl; [intros [= <-]; by rewrite app_nil_r|].
  destruct (next false L0 o) as [L1|] eqn:Hn; [|done]. apply next_event in Hn as [Hn|[? _]]; [|done]. intros Hl.
  replace (h0 ++ (F, o) :: h1) with ((h0 ++ [(F, o)]) ++ h1) by (by rewrite <- app_assoc). eapply IH; [|done]. by econstructor.
Qed.
Lemma ledger_of_skip h L : ledger_of true no_ledger h = Some L -> orderly_skip h L.
Proof.
  assert (forall h0 L0 h, orderly_skip h0 L0 -> ledger_of true L0 h = Some L -> orderly_skip (h0 ++ h) L) as H; [|apply (H [] no_ledger h); constructor].
  intros h0 L0 h1. revert h0 L0. induction h1 as [|[F o] h1 IH]; intros h0 L0 H0; simpl; [intros [= <-]; by rewrite app_nil_r|].
  destruct (next true L0 o) as [L1|] eqn:Hn; [|done]. intros Hl. replace (h0 ++ (F, o) :: h1) with ((h0 ++ [(F, o)]) ++ h1) by (by rewrite <- app_assoc).
  eapply IH; [|exact Hl]. apply next_event in Hn as [Hn|(_ & si & -> & H1 & H2 & H3 & ->)]; [by econstructor|by constructor].
Qed.

(** A stream with loaded accounts, a fork, a skipped confirmation, several slots finalized at once, an account that changes its owner and is closed. *)
Definition ini (a : acct) : filt * op := (admit_all, OInit a).
Definition ledger_hist : list (filt * op) :=
  [ ini (mk_acct 5 7 1 [] 8 1); ini (mk_acct 6 7 1 [] 7 1); slt 10 9 Processed; upd (mk_acct 5 7 2 [] 10 2) Processed; slt 10 9 Confirmed; slt 11 10 Processed; slt 12 10 Processed;
    upd (mk_acct 5 7 3 [] 11 3) Processed; upd (mk_acct 5 7 4 [] 12 4) Processed; slt 13 11 Processed; upd (mk_acct 6 8 5 [] 11 5) Processed; slt 13 11 Confirmed; slt 11 10 Finalized;
    slt 14 13 Processed; upd (mk_acct 6 0 0 [] 14 6) Processed; slt 14 13 Confirmed; (admit_all, OGet 5 Finalized) ].
Definition ledger_hist2 : list (filt * op) := ledger_hist ++ [slt 14 13 Finalized].
Definition ledger_at (h : list (filt * op)) : ledger := match ledger_of false no_ledger h with Some L => L | None => no_ledger end.
(** The accounts delivered by the calls of a history without snapshots. *)
Definition given1 (x : filt * op) : option acct := match snd x with OUpdate a _ => Some a | OInit a => Some a | _ => None end.
Definition given (h : list (filt * op)) : list acct := omap given1 h.
Definition plain (h : list (filt * op)) : Prop := Forall (fun x => fst x = admit_all /\ match snd x with OLoad _ _ => False | _ => True end) h.
Lemma plain_in h F o : plain h -> (F, o) ∈ h -> F = admit_all /\ forall a, delivers o a -> a ∈ given h.
Proof.
  intros Hp Hin. unfold plain in Hp. rewrite Forall_forall in Hp. destruct (Hp _ Hin) as [HF Ho]. split; [done|]. intros a Ha.
  apply elem_of_list_omap. exists (F, o). split; [done|]. destruct o; simpl in *; try done; by subst.
Qed.
Example C89_reads_show_ledger_example :
  orderly ledger_hist (ledger_at ledger_hist) /\ run ext_sample store_empty ledger_hist = Done (final ledger_hist) /\ steady ledger_hist 5 /\ closes_once ledger_hist 6 /\
  closes_once ledger_hist2 6 /\ orderly ledger_hist2 (ledger_at ledger_hist2) /\
  get_account (final ledger_hist) 5 Processed = Done (ROk (Some (mk_acct 5 7 4 [] 12 4))) /\
  get_account (final ledger_hist) 5 Confirmed = Done (ROk (Some (mk_acct 5 7 3 [] 11 3))) /\
  get_account (final ledger_hist) 6 Processed = Done (ROk None) /\ get_account (final ledger_hist) 6 Confirmed = Done (ROk None) /\
  get_account (final ledger_hist) 6 Finalized = Done (ROk (Some (mk_acct 6 8 5 [] 11 5))) /\ version_at (final ledger_hist2) 6 Finalized = None.
Proof.
  split; [apply ledger_of_orderly; crunch|]. split; [crunch|].
  assert (forall F o, (F, o) ∈ ledger_hist -> F = admit_all /\ forall a, delivers o a -> a ∈ given ledger_hist) as Hin.
  { intros F o. apply plain_in. by repeat constructor. }
  split; [split|].
  { intros F o F' o' a H _ _ _. by destruct (Hin F o H) as [-> _]. }
  { left. intros F o a H Ha Hpk. destruct (Hin F o H) as [_ Hd]. specialize (Hd a Ha). let l := eval vm_compute in (given ledger_hist) in change (given ledger_hist) with l in Hd. rewrite !elem_of_cons, elem_of_nil in Hd. destruct_or?; simplify_eq; done. }
  assert (forall h2, (forall F o, (F, o) ∈ h2 -> F = admit_all /\ forall a, ~ delivers o a) -> closes_once (ledger_hist ++ h2) 6) as Hc.
  { intros h2 Hh2. split.
    - intros F o F' o' a [H|H]%elem_of_app _ _ _ _; [by destruct (Hin F o H) as [-> _]|by destruct (Hh2 F o H) as [-> _]].
    - intros g1 F o g2 a Hh Ha Hpk Hd.
      assert (g1 = take 14 ledger_hist /\ g2 = drop 15 ledger_hist ++ h2 /\ a = mk_acct 6 0 0 [] 14 6) as (-> & -> & ->).
      { do 17 (destruct g1 as [|? g1]; [simpl in Hh; injection Hh as <- <- <-; simpl in Ha; try done; subst a; simpl in Hpk; try done; by (try destruct Hd; vm_compute)|simpl in Hh; injection Hh as <- Hh]).
        assert ((F, o) ∈ h2) as H by (rewrite Hh; set_solver). destruct (Hh2 F o H) as [_ Hn]. by destruct (Hn a). }
      split.
      + intros F' o' b H Hb Epk [Hle|[Hle _]]; simpl in H; unfold ini, upd, slt in H; rewrite !elem_of_cons, elem_of_nil in H; destruct_or?; simplify_eq; simpl in Hb; try done; subst; simpl in Epk; try done; unfold version_le in *; vm_compute in Hle; done.
      + intros F' o' b [H|H]%elem_of_app Hb Epk; [|destruct (Hh2 F' o' H) as [_ Hn]; by destruct (Hn b)].
        simpl in H; unfold ini, upd, slt in H; rewrite !elem_of_cons, elem_of_nil in H; destruct_or?; simplify_eq; simpl in Hb; done. }
  split; [rewrite <- (app_nil_r ledger_hist); apply Hc; intros F o H; by apply elem_of_nil in H|].
  split; [apply Hc; intros F o H; apply elem_of_list_singleton in H; unfold slt in H; simplify_eq; split; [done|intros a Ha; done]|]. split; [apply ledger_of_orderly; crunch|]. split_and!; crunch.
Qed.

Example C89_versions_show_ledger_example :
  orderly ledger_hist (ledger_at ledger_hist) /\ steady ledger_hist 5 /\ version_at (final ledger_hist) 5 Finalized = Some (mk_acct 5 7 3 [] 11 3).
Proof. destruct C89_reads_show_ledger_example as (? & _ & ? & _). split_and!; [done..|crunch]. Qed.

(** ** Confirmations that skip slots while nothing is confirmed beyond the newest finalized slot

    One line of slots 10 - 11 - 12 - 13, each announced with its true parent.  Slot 13 is confirmed without confirmations for 11 and 12. *)
Definition skip_hist : list (filt * op) :=
  [ slt 10 9 Processed; slt 10 9 Confirmed; slt 10 9 Finalized; slt 11 10 Processed; upd (mk_acct 5 7 1 [] 11 1) Processed; slt 12 11 Processed;
    upd (mk_acct 5 7 2 [] 12 2) Processed; upd (mk_acct 6 7 3 [] 12 3) Processed; slt 13 12 Processed; slt 13 12 Confirmed; slt 11 10 Finalized ].
Definition skip_hist2 : list (filt * op) := skip_hist ++ [slt 12 11 Finalized; slt 13 12 Finalized].
Definition skip_ledger (h : list (filt * op)) : ledger := match ledger_of true no_ledger h with Some L => L | None => no_ledger end.
Lemma plain_steady h pk : plain h -> Forall (fun a => d_pubkey a = pk -> alive a) (given h) -> steady h pk.
Proof.
  intros Hp Ha. split; [intros F o F' o' a H _ _ _; by destruct (plain_in h F o Hp H) as [-> _]|]. left. intros F o a H Hd. rewrite Forall_forall in Ha. apply Ha.
  by apply (plain_in h F o Hp H).
Qed.
(** FINDING: a write in slot 12 is served as finalized although slot 11 is the newest finalized slot. *)
Theorem C89_skipped_confirmation_ahead_refuted : exists E h L st pk a,
  orderly_skip h L /\ steady h pk /\ run E store_empty h = Done st /\ lg_fin L = Some 11 /\ get_account st pk Finalized = Done (ROk (Some a)) /\ d_slot a = 12.
Proof.
  exists ext_sample, skip_hist, (skip_ledger skip_hist), (final skip_hist), 6, (mk_acct 6 7 3 [] 12 3).
  split; [apply ledger_of_skip; crunch|]. split; [apply plain_steady; [by repeat constructor|vm_compute; repeat constructor]|]. split_and!; crunch.
Qed.
Print Assumptions C89_skipped_confirmation_ahead_refuted.
(** FINDING: the write of account 5 in slot 12 is not served as finalized although slot 12, and its child 13, have been finalized. *)
Theorem C89_skipped_confirmation_behind_refuted : exists E h L st pk a b,
  orderly_skip h L /\ steady h pk /\ run E store_empty h = Done st /\ counts L Finalized b /\ d_pubkey b = pk /\ d_slot b = 12 /\
  get_account st pk Finalized = Done (ROk (Some a)) /\ d_slot a = 11.
Proof.
  exists ext_sample, skip_hist2, (skip_ledger skip_hist2), (final skip_hist2), 5, (mk_acct 5 7 1 [] 11 1), (mk_acct 5 7 2 [] 12 2).
  split; [apply ledger_of_skip; crunch|]. split; [apply plain_steady; [by repeat constructor|vm_compute; repeat constructor]|]. split; [crunch|].
  split; [right; split; [vm_compute; repeat constructor|]; exists 13; split; [crunch|]; apply (branchb_spec fuel _ 13 12 true); crunch|]. split_and!; crunch.
Qed.
Print Assumptions C89_skipped_confirmation_behind_refuted.

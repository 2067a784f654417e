(** Theorems about concurrent calls of the token store: they do not panic (C79), they end (C80), and without overlap they are the
    calls of the sequential model (C81). *)
From Verif Require Import Base SMap DataModel BincodeModel BincodeProofs FilterModel FilterProofs StoreModel TokenModel TokenProofs TokenProps SplModel SplProofs TokenUtilsModel
  TokenUtilsProofs TokenPendModel TokenPendSpec TokenPendProofs TokenPendProps TokenUtilsProps TokenStoreModel TokenStoreSpec TokenStoreProofs TokenStoreViews TokenStoreProps TokenStoreOrder
  TokenStoreQuery TokenStoreQueryProps TokenStoreSafe TokenConcModel TokenConcSpec TokenConcProofs TokenConcSolo.
#[local] Arguments le : simpl never.
#[local] Arguments unle : simpl never.

(** ** Schedules *)
(** Make a call, make the call of the [n]-th operation of a list, or let call [j] make up to [n] steps. *)
Inductive tact := ACall (t : tthr) | AOp (n : nat) | AGo (j n : nat).
Fixpoint go (E : ext) (X : lz4x) (cs : tconc) (j n : nat) : option tconc :=
  match n with
  | O => Some cs
  | S n' =>
      match tc_thr cs !! j with
      | Some t => match tpiece E X (tc_ts cs) t with
                  | Some (Done (ts, t')) => go E X (TConc ts (<[j := t']> (tc_thr cs))) j n'
                  | Some Panic => None
                  | None => Some cs
                  end
      | None => None
      end
  end.
Definition add_call (cs : tconc) (t : tthr) : tconc := TConc (tc_ts cs) (tc_thr cs ++ [t]).
Definition plain_b (d : cond) : bool := match d with Datasize _ => true | MemcmpC (Memcmp _ (MBytes _)) => true | _ => false end.
Definition read_b (ts : tstore) (t : tthr) : bool :=
  match t with
  | XGet _ _ => true
  | XGpa p None _ => true
  | XGpa p (Some l) _ => forallb plain_b l && match owner_mint_filter p l with (Some _, Some m) => bool_decide (is_Some (ts_mint_ix ts !! m)) | _ => true end
  | _ => false
  end.
Definition oper_b (ts : tstore) (o : tsop) : bool :=
  match o with TLoad _ _ => false | _ => match tok_of o with Some (_, r) => bool_decide (is_Some (ts_mint_ix ts !! sa_mint r)) | None => true end end.
Fixpoint play (free : bool) (L : list tsop) (cs : tconc) (l : list tact) : option tconc :=
  match l with
  | [] => Some cs
  | ACall t :: l' => if is_call t && (free || read_b (tc_ts cs) t) then play free L (add_call cs t) l' else None
  | AOp n :: l' => match L !! n with Some o => if free || oper_b (tc_ts cs) o then play free L (add_call cs (op_call o)) l' else None | None => None end
  | AGo j n :: l' => match go E0 X0 cs j n with Some cs' => play free L cs' l' | None => None end
  end.
Definition any (_ : tconc) (_ : tthr) : Prop := True.
Lemma treach_trans E X ok cs1 cs2 cs3 : treach E X ok cs1 cs2 -> treach E X ok cs2 cs3 -> treach E X ok cs1 cs3.
Proof. induction 1; eauto using treach. Qed.
Lemma go_reach E X ok n cs j cs' : go E X cs j n = Some cs' -> treach E X ok cs cs'.
Proof.
  revert cs. induction n as [|n IH]; intros cs; simpl; [intros [= ->]; constructor|].
  destruct (tc_thr cs !! j) as [t|] eqn:Hj; [|done]. destruct (tpiece _ _ _ _) as [[[ts t']|]|] eqn:Hp; [|done|intros [= ->]; constructor].
  intros H. eapply treach_step; [done..|]. by apply IH.
Qed.
Lemma op_call_is o : is_call (op_call o) = true.
Proof. by destruct o. Qed.
Lemma play_reach L l cs cs' : play true L cs l = Some cs' -> treach E0 X0 any cs cs'.
Proof.
  revert cs. induction l as [|[t|n|j n] l IH]; intros cs; simpl; [intros [= ->]; constructor|..].
  - destruct (is_call t) eqn:Hc; [|done]. intros H. eapply treach_call; [done..|]. by apply IH.
  - destruct (L !! n) as [o|]; [|done]. intros H. eapply treach_call; [apply op_call_is|done|]. by apply IH.
  - destruct (go _ _ _ _ _) as [cs1|] eqn:Hg; [|done]. intros H. eapply treach_trans; [by eapply go_reach|]. by apply IH.
Qed.
Lemma plain_safe d v : plain_b d = true -> allows E0 d v <> Panic.
Proof. by destruct d as [n|[off [b|s|s]]]. Qed.
Lemma play_calm L l cs cs' : forallb raw_b L = true -> play false L cs l = Some cs' -> treach E0 X0 (calm_call E0 L) cs cs'.
Proof.
  intros Hraw. revert cs. induction l as [|[t|n|j n] l IH]; intros cs; simpl; [intros [= ->]; constructor|..].
  - destruct (is_call t) eqn:Hc; [|done]. cbn [andb]. destruct (read_b (tc_ts cs) t) eqn:Hr; [|done]. intros H. eapply treach_call; [done| |by apply IH].
    destruct t; try done; split; try done. intros p' fl' c' [= -> -> ->] q ->. simpl in Hr. apply andb_true_iff in Hr as [H1 H2]. split.
    + intros d v Hd. rewrite forallb_forall in H1. apply plain_safe, H1, elem_of_list_In, Hd.
    + intros o m Hom. rewrite Hom in H2. by apply bool_decide_eq_true in H2.
  - destruct (L !! n) as [o|] eqn:Hn; [|done]. cbn [orb]. destruct (oper_b (tc_ts cs) o) eqn:Ho; [|done]. intros H. eapply treach_call; [apply op_call_is| |by apply IH].
    pose proof (elem_of_list_lookup_2 _ _ _ Hn) as Hin. assert (call_op (op_call o) = Some o) as Hco by (by destruct o). split; [|by destruct o].
    intros o' Ho'. rewrite Hco in Ho'. injection Ho' as <-. split; [done|]. intros q (a & v & r & Ha & Hv & Hu & <-).
    assert (tok_of o = Some (d_pubkey a, r)) as Ht. { unfold tok_of. rewrite (op_raw L Hraw o a v Hin Ha Hv). simpl. by rewrite Hu. }
    unfold oper_b in Ho. rewrite Ht in Ho. destruct o; try done; by apply bool_decide_eq_true in Ho.
  - destruct (go _ _ _ _ _) as [cs1|] eqn:Hg; [|done]. intros H. eapply treach_trans; [by eapply go_reach|]. by apply IH.
Qed.
Definition played (free : bool) (L : list tsop) (l : list tact) : tconc := default tc_empty (play free L tc_empty l).
Definition plays (free : bool) (L : list tsop) (l : list tact) : bool := match play free L tc_empty l with Some _ => true | None => false end.
Lemma played_reach L l : plays true L l = true -> treach E0 X0 any tc_empty (played true L l).
Proof. unfold plays, played. destruct (play _ _ _ _) eqn:H; [|done]. intros _. by eapply play_reach. Qed.
Lemma played_calm L l : forallb raw_b L = true -> plays false L l = true -> treach E0 X0 (calm_call E0 L) tc_empty (played false L l).
Proof. unfold plays, played. destruct (play _ _ _ _) eqn:H; [|done]. intros ? _. by eapply play_calm. Qed.
Definition fin j : tact := AGo j 80.

(** ** C79: no interleaving panics *)
Theorem C79_no_panic E X L cs : calm_world E L -> treach E X (calm_call E L) tc_empty cs -> ~ tcstep E X cs Panic.
Proof.
  intros HW Hr Hp. destruct (reach_cinv E X L HW _ _ Hr (cinv_empty E L)) as [Hi _]. inversion Hp as [|j t Hj Ht|]; subst. by eapply cinv_nopanic.
Qed.
Print Assumptions C79_no_panic.
(** The operations in which calls overlap below: a mint, two token accounts pending and finalized, one closed, a multisig. *)
Definition crowd : list tsop :=
  [TInit (mintd 1001 50 1 1); TUpdate (tokd 77 1001 1002 5 10 1) Finalized; TUpdate (tokd 78 1001 1003 6 11 2) Confirmed; TUpdate (tokd 77 1001 1002 7 11 3) Processed;
   TSlot ord0 (SlotInfo 11 10 0) Processed; TUpdate (closed 78 12 4) Finalized; TSlot ord0 (SlotInfo 11 10 0) Confirmed; TSlot ord0 (SlotInfo 11 10 0) Finalized;
   TUpdate (multid 300 12 5) Processed].
Lemma crowd_raw : forallb raw_b crowd = true.
Proof. done. Qed.
Lemma world_check L M : forallb raw_b L = true -> ops_ok L -> stay_b L = true -> lenN M <= 2 ^ 32 ->
  (forall o a, o ∈ L -> op_acct o = Some a -> exists v, d_data a = DRaw v) ->
  (forall ord si c, TSlot ord si c ∈ L -> si_parent si < si_slot si) ->
  forallb (fun o => match op_bytes o with
                    | Some (pk, v) => (negb (bool_decide (is_Some (unpack_mint v))) || bool_decide (pk ∈ M)) && match unpack_account v with Some r => bool_decide (sa_mint r ∈ M) | None => true end
                    | None => true end) L = true -> calm_world E0 L.
Proof.
  intros Hraw Hok Hst HM Hd Hpar Hm. split; [done|]. split; [by apply stay_check|]. split; [|split; [done|]].
  - intros o a Ho Ha. destruct (Hd o a Ho Ha) as [v Hv]. rewrite Hv. by exists v.
  - exists M. split; [done|]. intros o q Ho Hn. rewrite forallb_forall in Hm. specialize (Hm o (proj1 (elem_of_list_In _ _) Ho)). destruct Hn as [(a & v & r & Ha & Hv & Hu & <-)|(a & v & Ha & <- & Hv & Hu)].
    + rewrite (op_raw L Hraw o a v Ho Ha Hv), Hu in Hm. apply andb_true_iff in Hm as [_ Hm]. by apply bool_decide_eq_true in Hm.
    + rewrite (op_raw L Hraw o a v Ho Ha Hv) in Hm. apply andb_true_iff in Hm as [Hm _]. rewrite bool_decide_eq_true_2 in Hm by done. by apply bool_decide_eq_true in Hm.
Qed.
Lemma raw_data L : forallb raw_b L = true -> forall o a, o ∈ L -> op_acct o = Some a -> exists v, d_data a = DRaw v.
Proof.
  intros H o a Ho Ha. rewrite forallb_forall in H. specialize (H o (proj1 (elem_of_list_In _ _) Ho)). unfold raw_b in H. rewrite Ha in H. destruct (d_data a); try done. eauto.
Qed.
Lemma crowd_world : calm_world E0 crowd.
Proof.
  apply (world_check crowd [1001]); [done|repeat constructor; simpl; try done; intros m; done|by vm_compute|done|by apply raw_data| |by vm_compute].
  intros ord si c H. unfold crowd in H. rewrite !elem_of_cons, elem_of_nil in H. destruct_or! H; try done; by injection H as -> -> ->.
Qed.
(** The mint arrives; then eight operations and three reads take turns. *)
Definition crowd_play : list tact :=
  [AOp 0; fin 0; AOp 1; AOp 2; AOp 3; AGo 1 4; AGo 2 3; AGo 3 4; AGo 2 2; AOp 4; AGo 4 2; AOp 5; AOp 6; AOp 7; ACall (XGet 77 Confirmed); ACall (XGet 78 Processed);
   ACall (XGpa spl_token_id (Some (by_owner 1002 ++ by_mint 1001)) Confirmed); AOp 8; AGo 5 6; AGo 6 4; AGo 8 1; AGo 7 3; AGo 8 2; AGo 9 2; AGo 1 2; AGo 10 3; AGo 7 2; AGo 5 1; AGo 10 4; AGo 9 1].
Example C79_example_hyps : calm_world E0 crowd /\ treach E0 X0 (calm_call E0 crowd) tc_empty (played false crowd crowd_play) /\
  length (tc_thr (played false crowd crowd_play)) = 12%nat /\
  length (filter (fun t => match t with XDone _ => true | _ => false end = false) (tc_thr (played false crowd crowd_play))) = 7%nat.
Proof. split; [apply crowd_world|]. split; [apply played_calm; [done|by vm_compute]|]. split; by vm_compute. Qed.

(** ** C80: every call ends *)
(** Whatever the other calls do between its pieces. *)
Definition next_point (E : ext) (X : lz4x) (t' t : tthr) : Prop := exists ts ts', tpiece E X ts t = Some (Done (ts', t')).
(** Phases of a call, and the work left in a phase. *)
Definition phase (t : tthr) : nat :=
  match t with
  | XDone _ => 0 | XShow _ _ | XRow _ _ => 1 | XRowSlot _ => 2 | XGetRow _ => 3 | XGetMint _ => 4 | XGetFin _ => 5 | XPendConf _ _ _ => 6 | XPend _ _ _ => 7 | XGet _ _ => 8
  | XOverlay _ _ _ => 1 | XOverConf _ _ _ => 2 | XOverPend _ _ _ => 3 | XOver _ _ => 4 | XRows _ _ _ _ => 5 | XGpaAll _ _ _ => 6 | XGpaMint _ _ _ => 6 | XGpaRows _ _ _ _ _ => 6
  | XGpaOwnerMint _ _ _ _ _ => 7 | XGpaOwner _ _ _ _ => 8 | XGpa _ _ _ => 9
  | XAdds _ _ | XByMint _ _ _ _ | XByOwner _ _ _ _ | XDelMint _ _ _ | XDelByMint _ _ _ | XDel2 _ _ _ | XDelKey _ _ _ | XDelRow _ _ _ _ => 1
  | XIns _ _ => 1 | XType _ _ => 2 | XUpdTable _ _ => 3 | XUpdMulti _ _ => 4 | XUpd _ _ => 5
  | XRender _ _ _ => 2 | XFinalize _ _ => 3 | XFinStore _ _ => 4 | XFinInfo _ _ => 5 | XForNew _ => 3 | XFor _ => 4 | XConfInfo _ => 5 | XConfStore _ => 6 | XSlot _ _ _ => 7
  | XLoadRows _ _ | XLoadOwner _ _ _ _ | XLoadOwnerNew _ _ _ _ | XLoadMint _ _ _ _ | XLoadMintNew _ _ _ _ => 1 | XLoadMints _ _ _ | XLoadNew _ _ _ _ _ => 2 | XLoadMulti _ _ _ => 3 | XLoad _ => 4
  end.
Definition left_over (t : tthr) : nat :=
  match t with
  | XOverlay l _ _ => length l | XRows q _ _ _ => length q | XRender q _ _ => length q
  | XAdds l _ => 5 * length l | XByMint _ _ l _ | XDelMint _ l _ | XDelKey _ l _ => 5 * length l + 3 | XDel2 _ l _ => 5 * length l + 4
  | XByOwner _ _ l _ | XDelByMint _ l _ | XDelRow _ _ l _ => 5 * length l + 2
  | XLoadRows _ r => 6 * length r | XLoadOwner _ _ _ r => 6 * length r + 5 | XLoadOwnerNew _ _ _ r => 6 * length r + 4
  | XLoadMint _ _ _ r => 6 * length r + 3 | XLoadMintNew _ _ _ r => 6 * length r + 2
  | XLoadMints l _ _ => 2 * length l | XLoadNew _ _ l _ _ => 2 * length l + 1 | XLoadMulti l _ _ => length l
  | _ => 0
  end.
Definition less_left (t' t : tthr) : Prop := (phase t' < phase t)%nat \/ (phase t' = phase t /\ (left_over t' < left_over t)%nat).
Lemma less_left_wf : well_founded less_left.
Proof.
  assert (forall n m t, phase t = n -> left_over t = m -> Acc less_left t) as H; [|by intros t; eapply H].
  intros n. induction (lt_wf n) as [n _ IHn]. intros m. induction (lt_wf m) as [m _ IHm]. intros t Hp Hl. constructor. intros t' [H|[H1 H2]].
  - eapply IHn; [|done|done]. lia.
  - eapply IHm; [|lia|done]. lia.
Qed.
Lemma bind_done {A B} (m : res A) (f : A -> res B) y : (x ← m; f x) = Done y -> exists x, m = Done x /\ f x = Done y.
Proof. destruct m as [x|]; [|done]. cbn [mbind res_bind]. eauto. Qed.
Lemma next_less E X t' t : next_point E X t' t -> less_left t' t.
Proof.
  intros (ts & ts' & H). unfold less_left.
  destruct t; cbn [tpiece] in H; repeat (match type of H with
    | context [match ?x with _ => _ end] => lazymatch type of x with list _ => destruct x | tpa => destruct x | commitment => destruct x | option commitment => destruct x | prod _ _ => destruct x
        | option _ => destruct x | bool => destruct x | res _ => destruct x end
    end; cbn [mbind res_bind unwrap] in H); try discriminate H;
  repeat (match type of H with
    | Some _ = Some _ => apply (inj Some) in H
    | (_ ← _; _) = Done _ => apply bind_done in H as (? & _ & H)
    | Done _ = Done _ => injection H as <- <-
    | context [match ?x with _ => _ end] => destruct x
    end); cbn; unfold shown; repeat case_match; try (left; cbn; lia); try (right; split; [done|]; cbn; lia).
Qed.
Theorem C80_calls_end E X : well_founded (next_point E X).
Proof. intros t. induction (less_left_wf t) as [t _ IH]. constructor. intros t' H. apply IH. by eapply next_less. Qed.
Print Assumptions C80_calls_end.
(** In a calm execution every call in progress returns an answer once it is left alone. *)
Theorem C80_returns E X L cs j t : calm_world E L -> treach E X (calm_call E L) tc_empty cs -> tc_thr cs !! j = Some t ->
  exists ts' o, runs E X (tc_ts cs) t (Done (ts', o)).
Proof.
  intros HW Hr Hj. destruct (reach_cinv E X L HW _ _ Hr (cinv_empty E L)) as [Hi _]. clear Hr. revert cs Hi Hj. induction (C80_calls_end E X t) as [t _ IH]. intros cs Hi Hj.
  destruct (tpiece E X (tc_ts cs) t) as [[[ts t']|]|] eqn:Hp.
  - destruct (cinv_step E X L HW _ _ _ _ _ Hi Hj Hp) as [Hi' _]. destruct (IH t') with (cs := TConc ts (<[j := t']> (tc_thr cs))) as (ts' & o & Hr); [by exists (tc_ts cs), ts|done| |].
    { simpl. apply list_lookup_insert. by eapply lookup_lt_Some. } exists ts', o. by eapply runs_step.
  - by destruct (cinv_nopanic E X L HW _ _ _ Hi Hj).
  - assert (exists o, t = XDone o) as [o ->]; [|exists (tc_ts cs), o; constructor].
    destruct t; cbn [tpiece] in Hp; repeat case_match; try discriminate Hp; eauto.
Qed.
Print Assumptions C80_returns.
Example C80_example : next_point E0 X0 (XAdds [] (OUpdate true)) (XByOwner deleted_account 0 [] (OUpdate true)) /\
  (exists t, tc_thr (played false crowd crowd_play) !! 7%nat = Some t /\ forall o, t <> XDone o).
Proof. split; [exists ts_empty; eexists; reflexivity|]. eexists. split; [by vm_compute|done]. Qed.

(** ** C81: calls that do not overlap are the calls of the sequential model *)
Theorem C81_update E X ts a c r : runs E X ts (XUpd a (Some c)) r <-> r = ('(ts', b) ← ts_update E ts a c; Done (ts', OUpdate b)).
Proof. split; [intros H; by eapply runs_fun, solo_update|intros ->; apply solo_update]. Qed.
Theorem C81_init E X ts a r : runs E X ts (XUpd a None) r <-> r = (ts' ← ts_init E ts a; Done (ts', OInit)).
Proof. split; [intros H; by eapply runs_fun, solo_init|intros ->; apply solo_init]. Qed.
Theorem C81_slot E X ts ord si c r : runs E X ts (XSlot ord si c) r <-> r = ('(ts', l) ← ts_slot ord ts si c; Done (ts', OSlot l)).
Proof. split; [intros H; by eapply runs_fun, solo_slot|intros ->; apply solo_slot]. Qed.
Theorem C81_get E X ts pk c r : runs E X ts (XGet pk c) r <-> r = (r ← ts_get ts pk c; Done (ts, match r with ROk o => OGet o | RErr _ => OGet None end)).
Proof. split; [intros H; by eapply runs_fun, solo_get|intros ->; apply solo_get]. Qed.
Theorem C81_query E X ts p fl c r : runs E X ts (XGpa p fl c) r <-> r = (r ← ts_gpa E ts p fl c; Done (ts, OGpa r)).
Proof. split; [intros H; by eapply runs_fun, solo_gpa|intros ->; apply solo_gpa]. Qed.
Theorem C81_load E X ts p b r : runs E X ts (XLoad b) r <-> r = ('(ts', o) ← ts_load X ts p b; Done (ts', OLoad o)).
Proof. split; [intros H; by eapply runs_fun, (solo_load _ _ _ p)|intros ->; apply solo_load]. Qed.
Print Assumptions C81_update.
Print Assumptions C81_init.
Print Assumptions C81_slot.
Print Assumptions C81_get.
Print Assumptions C81_query.
Print Assumptions C81_load.
(** A history of the sequential model is an execution of the concurrent one, all of whose calls return. *)
Theorem C81_history E X ts l ts' thr : ts_run E X ts l = Done ts' -> exists outs, treach E X any (TConc ts thr) (TConc ts' (thr ++ (XDone <$> outs))) /\ length outs = length l.
Proof.
  revert ts thr. induction l as [|o l IH]; intros ts thr; cbn [ts_run].
  - intros [= <-]. exists []. rewrite app_nil_r. split; [constructor|done].
  - destruct (ts_step E X ts o) as [ts1|] eqn:Hs; [|done]. cbn [mbind res_bind]. intros Hr. assert (exists out, runs E X ts (op_call o) (Done (ts1, out))) as [out Ho].
    { destruct o as [a c|a|ord si c|p b]; cbn [ts_step op_call] in *.
      - pose proof (solo_update E X ts a c) as H. destruct (ts_update _ _ _ _) as [[ts2 b]|]; [|done]. injection Hs as ->. eauto.
      - pose proof (solo_init E X ts a) as H. rewrite Hs in H. eauto.
      - pose proof (solo_slot E X ts ord si c) as H. destruct (ts_slot _ _ _ _) as [[ts2 b]|]; [|done]. injection Hs as ->. eauto.
      - pose proof (solo_load E X ts p b) as H. destruct (ts_load _ _ _ _) as [[ts2 b2]|]; [|done]. injection Hs as ->. eauto. }
    destruct (IH ts1 (thr ++ [XDone out]) Hr) as (outs & Hre & Hlen). exists (out :: outs). split; [|simpl; by rewrite Hlen].
    eapply treach_call; [apply op_call_is|done|]. simpl. assert ((thr ++ [op_call o]) !! length thr = Some (op_call o)) as Hj by (by apply list_lookup_middle).
    pose proof (runs_reach E X ts _ ts1 out any _ _ Ho Hj) as H1. rewrite insert_app_r_alt, Nat.sub_diag in H1 by done. simpl in H1. eapply treach_trans; [exact H1|].
    by rewrite <- app_assoc in Hre.
Qed.
Print Assumptions C81_history.
Example C81_example : exists out, runs E0 X0 (final (take 4 life1)) (XSlot ord0 (SlotInfo 10 9 0) Finalized) (Done (final (take 5 life1), out)) /\
  match out with OSlot l => d_pubkey <$> l = [78] | _ => False end.
Proof.
  eexists. split; [apply C81_slot|]; [symmetry|].
  - by vm_compute.
  - by vm_compute.
Qed.

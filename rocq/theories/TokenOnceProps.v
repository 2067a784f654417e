(** C113: a token store that hears every update at least once, in any order (update_account, inmemory_token_storage.rs 558-589). *)
From Verif Require Import Base SMap DataModel BincodeModel BincodeProofs FilterModel FilterProofs StoreModel TokenModel TokenProofs TokenProps SplModel SplProofs TokenUtilsModel
  TokenUtilsProofs TokenPendModel TokenPendSpec TokenPendProofs TokenPendProps TokenUtilsProps TokenStoreModel TokenStoreSpec TokenStoreProofs TokenStoreViews TokenStoreProps TokenStoreOrder
  TokenStoreQuery TokenStoreQueryProps TokenStoreSafe TokenAnswerProps TokenArrivalProps TokenRenumberProps TokenRedeliverProps.

(** The level an update below finalized is sent with does not matter: both levels take the branch of inmemory_token_storage.rs 580-587. An update at processed. *)
Definition proc (a : acct) : acct * commitment := (a, Processed).
Lemma run_level E X us : forall ts, Forall may_come us -> ts_run E X ts (ups us) = ts_run E X ts (ups (proc <$> us.*1)).
Proof.
  induction us as [|[a c] us IH]; intros ts Hall; [done|]. apply Forall_cons in Hall as [(Hc & _ & Ho) Hall]. cbn [fst snd] in *. destruct (update_taken E a Ho) as [k Hk].
  change (ups ((a, c) :: us)) with (TUpdate a c :: ups us). change (ups (proc <$> ((a, c) :: us).*1)) with (TUpdate a Processed :: ups (proc <$> us.*1)). cbn [ts_run]. rewrite (Hk X ts c Hc), (Hk X ts Processed ltac:(done)).
  destruct k as [o|]; cbn [mbind res_bind]; [|done]. by apply IH.
Qed.
(** Specification: the first occurrences of the updates of a list that are not in [seen]; not in the code. *)
Fixpoint fresh (seen l : list acct) : list acct :=
  match l with [] => [] | a :: l' => if decide (a ∈ seen) then fresh seen l' else a :: fresh (a :: seen) l' end.
Lemma fresh_elem l : forall seen x, x ∈ fresh seen l <-> x ∈ l /\ x ∉ seen.
Proof.
  induction l as [|a l IH]; intros seen x; cbn [fresh]; [rewrite elem_of_nil; naive_solver|]. destruct (decide (a ∈ seen)) as [Ha|Ha].
  - rewrite IH, elem_of_cons. split; [naive_solver|]. intros [[->|Hx] Hn]; [done|naive_solver].
  - rewrite !elem_of_cons, IH, not_elem_of_cons. destruct (decide (x = a)) as [->|]; naive_solver.
Qed.
Lemma fresh_nodup l : forall seen, NoDup (fresh seen l).
Proof.
  induction l as [|a l IH]; intros seen; cbn [fresh]; [constructor|]. destruct (decide (a ∈ seen)); [apply IH|]. constructor; [|apply IH]. rewrite fresh_elem, not_elem_of_cons. naive_solver.
Qed.
(** Specification: the store heard [a] before (update_account, inmemory_token_storage.rs 558-589) and nothing at finalized since. *)
Definition heard (E : ext) (X : lz4x) (ts : tstore) (a : acct) : Prop := exists ts0 ts1 r l, ts_update E ts0 a Processed = Done (ts1, r) /\ Forall below l /\ ts_run E X ts1 l = Done ts.
Lemma run_fresh E X l : forall seen ts, Forall token_owned l -> (forall a, a ∈ seen -> token_owned a /\ heard E X ts a) -> ts_run E X ts (ups (proc <$> l)) = ts_run E X ts (ups (proc <$> fresh seen l)).
Proof.
  induction l as [|a l IH]; intros seen ts Hall Hseen; [done|]. apply Forall_cons in Hall as [Ho Hall]. cbn [fresh]. destruct (decide (a ∈ seen)) as [Ha|Ha].
  - destruct (Hseen a Ha) as (_ & ts0 & ts1 & r & l0 & Hu & Hl & Hr). pose proof (C112_update_again E X ts0 a Processed ts1 r l0 ts Processed ltac:(done) Ho Hu Hl Hr ltac:(done)) as Hag.
    change (ups (proc <$> a :: l)) with (TUpdate a Processed :: ups (proc <$> l)). cbn [ts_run ts_step]. rewrite Hag. cbn [mbind res_bind]. by apply IH.
  - change (ups (proc <$> a :: l)) with (TUpdate a Processed :: ups (proc <$> l)). change (ups (proc <$> a :: fresh (a :: seen) l)) with (TUpdate a Processed :: ups (proc <$> fresh (a :: seen) l)). cbn [ts_run ts_step].
    destruct (ts_update E ts a Processed) as [[t r]|] eqn:Hu; cbn [mbind res_bind]; [|done]. apply IH; [done|]. intros x [->|Hx]%elem_of_cons.
    + split; [done|]. exists ts, t, r, []. split; [done|]. split; [constructor|done].
    + destruct (Hseen x Hx) as (Hxo & ts0 & ts1 & r0 & l0 & Hu0 & Hl0 & Hr0). split; [done|]. exists ts0, ts1, r0, (l0 ++ [TUpdate a Processed]). split; [done|]. split; [apply Forall_app; split; [done|]; by apply Forall_cons_2|].
      rewrite (run_app_done _ _ _ _ _ _ Hr0). cbn [ts_run ts_step]. by rewrite Hu.
Qed.
Lemma once E X us ts : Forall may_come us -> ts_run E X ts (ups us) = ts_run E X ts (ups (proc <$> fresh [] us.*1)).
Proof.
  intros H. rewrite (run_level E X us ts H). apply run_fresh; [|intros a Ha; by apply elem_of_nil in Ha]. apply Forall_fmap. eapply Forall_impl; [exact H|]. by intros u (_ & _ & Ho).
Qed.

(** The same updates, each at least once, in any order and number and at any level below finalized: no later answer tells. *)
Theorem C113_at_least_once : forall E X l0 ts us vs ts1 l ts2 x,
  ts_run E X ts_empty l0 = Done ts -> ops_ok l0 -> (forall a, a ∈ us.*1 <-> a ∈ vs.*1) ->
  Forall (fun u => u.2 <> Finalized /\ d_pubkey u.1 < 2 ^ 256 /\ (d_owner u.1 = spl_token_id \/ d_owner u.1 = spl_2022_id)) (us ++ vs) -> one_version us ->
  ts_run E X ts (ups us) = Done ts1 -> ops_ok l -> hears E X ts1 l = Done (ts2, x) -> ts_ctr ts2 <= 2 ^ 32 ->
  exists ts1' l' ts2' x', ts_run E X ts (ups vs) = Done ts1' /\ Forall2 same_call l l' /\ ops_ok l' /\ hears E X ts1' l' = Done (ts2', x') /\ Forall2 same_answer x x' /\ same_view E ts1 ts1' /\ same_view E ts2 ts2'.
Proof.
  intros E X l0 ts us vs ts1 l ts2 x H0 Hok0 Hsame Hall Hone Hr Hok Hh Hc. apply Forall_app in Hall as [Hus Hvs]. rewrite (once E X us ts Hus) in Hr. rewrite (once E X vs ts Hvs).
  assert (forall a, a ∈ us.*1 -> may_come (proc a)) as Hcome. { intros a (u & -> & Hu)%elem_of_list_fmap. destruct (proj1 (Forall_forall _ _) Hus u Hu) as (_ & H1 & H2). by split. }
  eapply (C111_arrival_order E X l0 ts (proc <$> fresh [] us.*1) (proc <$> fresh [] vs.*1)); [exact H0|exact Hok0| | | |exact Hr|exact Hok|exact Hh|exact Hc].
  - apply fmap_Permutation, NoDup_Permutation; [apply fresh_nodup..|]. intros a. by rewrite !fresh_elem, Hsame.
  - apply Forall_fmap, Forall_forall. intros a Ha. apply Hcome. apply fresh_elem in Ha. naive_solver.
  - intros u v (a & -> & Ha)%elem_of_list_fmap (b & -> & Hb)%elem_of_list_fmap H1 H2 H3. apply fresh_elem in Ha as [(u' & -> & Hu)%elem_of_list_fmap _]. apply fresh_elem in Hb as [(v' & -> & Hv)%elem_of_list_fmap _]. by apply (Hone u' v').
Qed.
Print Assumptions C113_at_least_once.
(** Test data: the updates of us111, each twice, in another order; not in the code. *)
Definition vs113 : list (acct * commitment) := [(tokd 78 1003 1002 7 10 3, Processed); (tokd 77 1001 1002 6 10 2, Confirmed); (tokd 78 1003 1002 7 10 3, Confirmed); (tokd 77 1001 1002 6 10 2, Processed)].
Example C113_example : ops_ok l111 /\ (forall a, a ∈ us111.*1 <-> a ∈ vs113.*1) /\ Forall (fun u => u.2 <> Finalized /\ d_pubkey u.1 < 2 ^ 256 /\ (d_owner u.1 = spl_token_id \/ d_owner u.1 = spl_2022_id)) (us111 ++ vs113) /\ one_version us111 /\
  ran (ups us111 ++ l111) = true /\ ran (ups vs113 ++ l111) = true /\ ts_ctr (final (ups us111 ++ l111)) <= 2 ^ 32 /\
  ts_get (final (ups us111 ++ l111)) 78 Finalized = Done (ROk (Some (tokd 78 1003 1002 7 10 0))) /\ ts_get (final (ups vs113 ++ l111)) 78 Finalized = Done (ROk (Some (tokd 78 1003 1002 7 10 0))).
Proof.
  split; [apply C111_arrival_example|]. split; [intros a; unfold us111, vs113; cbn [fmap list_fmap fst]; rewrite !elem_of_cons, elem_of_nil; naive_solver|].
  split; [unfold us111, vs113; cbn [app]; repeat (apply Forall_cons_2; [split; [done|split; [done|by left]]|]); by apply Forall_nil_2|]. split; [apply C111_arrival_example|].
  split; [by vm_compute|]. split; [by vm_compute|]. split; [by vm_compute|]. split; by vm_compute.
Qed.

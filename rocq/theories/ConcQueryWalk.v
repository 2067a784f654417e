(** Proofs about queries that run while other calls run: what a query collects. *)
From Verif Require Import Base SMap DataModel FilterModel FilterSpec BincodeModel ByCommitModel ByCommitSpec ByCommitProofs
  StoreModel StoreSpec StoreProofs StoreSlot StoreViews StoreHist ConcModel ConcProofs ConcReads ConcQueryModel ConcQuerySpec ConcQueryProofs.

Section walk.
Context (E : ext).
Notation world := (qworld E).
Notation vix qs := (virt_index (cs_st (qs_cs qs)) (cs_pend (qs_cs qs))).
Notation len qs := (length (st_accounts (cs_st (qs_cs qs)))).

Lemma qok_step qs qs' : cok (qs_cs qs) -> qstep E qs (Done qs') -> cok (qs_cs qs').
Proof.
  intros Hc Hs. destruct (qstep_inv _ _ _ Hs) as [(F & j & cs1 & H & ->)|[-> _]]; [|done]. by destruct (cok_step _ _ _ _ Hc H) as (? & [= <-] & ? & _).
Qed.
Lemma qok_reach qs qs' : cok (qs_cs qs) -> qreach E qs qs' -> cok (qs_cs qs').
Proof. intros Hc. induction 1; eauto using qok_step. Qed.

(** An entry that shows something belongs to somebody. *)
Lemma entry_held qs i b c x : cok (qs_cs qs) -> st_accounts (cs_st (qs_cs qs)) !! i = Some b -> bc_get b c = Some x ->
  held qs c x /\ vix qs !! d_pubkey x = Some i.
Proof.
  intros Hc Hb Hg. pose proof (co_vok _ Hc) as Hv. pose proof (vo_ok _ _ Hv) as Hok. pose proof (so_bc _ Hok i b Hb) as Hbc.
  assert ((exists q, vix qs !! q = Some i) \/ forall q, vix qs !! q <> Some i) as [[q Hq]|Hnone].
  { destruct (decide (map_Exists (fun _ j => j = i) (vix qs))) as [(q & ? & ? & ->)|Hno]; [eauto|]. right. intros q Hq. apply Hno. exists q, i. done. }
  - destruct (so_pk _ Hok q i b Hq Hb) as [Hall _]. pose proof (bc_all_get _ b c x Hbc Hall Hg) as Hx. simpl in Hx. subst q. split; [|done].
    rewrite virt_lookup in Hq. destruct (st_index (cs_st (qs_cs qs)) !! d_pubkey x) as [k|] eqn:Hk.
    + injection Hq as ->. left. by rewrite (version_at_entry _ _ _ _ c Hk Hb).
    + destruct (cs_pend (qs_cs qs) !! d_pubkey x) as [p|] eqn:Hp; [|done]. simpl in Hq. injection Hq as <-. right. exists p. split; [done|].
      symmetry. exact (bc_all_get _ b c x Hbc (vo_single _ _ Hv _ _ _ Hp Hb) Hg).
  - rewrite (so_orphan _ Hok i b Hb Hnone) in Hg. by destruct c.
Qed.

(** What is collected was held on the way. *)
Section way.
Context (Fok : filt -> Prop) (Aok : acct -> Prop) (P : qstate -> Prop).
Notation R := (world Fok Aok P).
Definition good (qs0 qs : qstate) (p : pubkey) (fl : option (list cond)) (c : commitment) (b : acct) : Prop :=
  exists x, held_between E Fok Aok P qs0 qs c x /\ same_account E b x /\ d_owner x = p /\ meets E fl x /\ (fl <> None -> alive x).
Definition walk_ok (qs0 qs : qstate) (p : pubkey) (fl : option (list cond)) (c : commitment) (q : qthr) : Prop :=
  match q with
  | QGpa p' fl' c' | QOwn p' fl' c' | QSet p' fl' c' => p' = p /\ fl' = fl /\ c' = c
  | QWalk p' fl' c' todo out => (p' = p /\ fl' = fl /\ c' = c) /\ NoDup todo /\ Forall (fun k => (k < len qs)%nat) todo /\
      Forall (fun b => forall k, k ∈ todo -> vix qs !! d_pubkey b <> Some k) out /\ NoDup (map d_pubkey out) /\ Forall (good qs0 qs p fl c) out
  | QEnd (ROk out) => NoDup (map d_pubkey out) /\ Forall (good qs0 qs p fl c) out
  | QEnd (RErr _) => True
  end.
Lemma good_mono qs0 qs qs' p fl c b : R qs qs' -> good qs0 qs p fl c b -> good qs0 qs' p fl c b.
Proof. intros H (x & (qm & H1 & H2 & H3) & Hx). exists x. split; [|done]. exists qm. split; [done|]. split; [by eapply world_trans|done]. Qed.

(** The query itself does not matter to the states of the store. *)
Lemma walk_ok_same qs0 qs qs' p fl c q : qs_cs qs' = qs_cs qs -> R qs qs' -> walk_ok qs0 qs p fl c q -> walk_ok qs0 qs' p fl c q.
Proof.
  intros He Hr. destruct q as [| | |p' fl' c' todo out|[out|]]; simpl; try done; rewrite ?He.
  - intros (H1 & H2 & H3 & H4 & H5 & H6). split_and!; try done; try tauto. eapply Forall_impl; [exact H6|]. intros b. by apply good_mono.
  - intros [H1 H2]. split; [done|]. eapply Forall_impl; [exact H2|]. intros b. by apply good_mono.
Qed.
Lemma walk_ok_other qs0 qs F j cs1 p fl c q : cok (qs_cs qs) -> cstep (qs_cs qs) F j (Done cs1) -> R qs (QS cs1 (qs_q qs)) ->
  walk_ok qs0 qs p fl c q -> walk_ok qs0 (QS cs1 (qs_q qs)) p fl c q.
Proof.
  intros Hc Hs Hr. destruct (step_virt _ _ _ _ Hc Hs) as (Hlen & Hvi & _).
  destruct q as [| | |p' fl' c' todo out|[out|]]; simpl; try done.
  - intros (H1 & H2 & H3 & H4 & H5 & H6). split_and!; try done; try tauto.
    + eapply Forall_impl; [exact H3|]. simpl. intros k Hk. lia.
    + eapply Forall_impl; [exact H4|]. simpl. intros b Hb k Hk Hv. rewrite Forall_forall in H3. pose proof (H3 k Hk) as Hlt. simpl in Hlt.
      destruct (Hvi _ _ Hv) as [H|[_ H]]; [by apply (Hb k)|lia].
    + eapply Forall_impl; [exact H6|]. intros b. by apply good_mono.
  - intros [H1 H2]. split; [done|]. eapply Forall_impl; [exact H2|]. intros b. by apply good_mono.
Qed.
Lemma walk_ok_piece qs0 qs F p fl c q q' : cok (qs_cs qs) -> P qs -> R qs0 qs -> walk_ok qs0 qs p fl c q -> qpiece E F (cs_st (qs_cs qs)) q = Some (Done q') -> walk_ok qs0 qs p fl c q'.
Proof.
  intros Hc HP Hr. pose proof (co_vok _ Hc) as Hv. pose proof (vo_ok _ _ Hv) as Hok.
  destruct q as [p' fl' c'|p' fl' c'|p' fl' c'|p' fl' c' [|i todo] out|r]; simpl.
  - intros (-> & -> & ->). intros [= <-]. by destruct (fl_contains _ _).
  - intros (-> & -> & ->). intros [= <-]. destruct (st_owners _ !! p); simpl; [done|]. split; [constructor|constructor].
  - intros (-> & -> & ->). intros [= <-]. simpl. split_and!; try done; try constructor; [apply NoDup_elements|].
    apply Forall_forall. intros k Hk%elem_of_elements. destruct (st_owners (cs_st (qs_cs qs)) !! p) as [s|] eqn:Ho; simpl in Hk; [|set_solver].
    exact (so_owners _ Hok p s k Ho Hk).
  - intros (_ & _ & _ & _ & H5 & H6) [= <-]. done.
  - intros ((-> & -> & ->) & H2 & H3 & H4 & H5 & H6). destruct (st_accounts (cs_st (qs_cs qs)) !! i) as [b|] eqn:Hb; [|done]. simpl.
    destruct (gpa_entry E b c p fl) as [l|] eqn:Hl; [|done]. simpl. intros [= <-]. simpl. apply NoDup_cons in H2 as [Hni H2]. apply Forall_cons in H3 as [_ H3].
    assert (l = [] \/ exists a, l = [a] /\ good qs0 qs p fl c a /\ vix qs !! d_pubkey a = Some i) as [->|(a & -> & Hg & Hix)].
    { destruct l as [|a l]; [by left|]. right. destruct (gpa_entry_sound _ _ _ _ _ _ a Hl) as (x & -> & Hx & Hsame & Ho & Hm & Hal); [left|].
      exists a. split; [done|]. destruct (entry_held qs i b c x Hc Hb Hx) as [Hh Hi]. split.
      - exists x. split_and!; try done. exists qs. split; [done|]. split; [by constructor|done].
      - by rewrite (proj1 Hsame). }
    + rewrite app_nil_r. split_and!; try done. eapply Forall_impl; [exact H4|]. simpl. intros b0 H0 k Hk. apply H0. by right.
    + split_and!; try done.
      * apply Forall_app. split; [eapply Forall_impl; [exact H4|]; simpl; intros b0 H0 k Hk; apply H0; by right|].
        apply Forall_singleton. rewrite Hix. intros k Hk [= ->]. done.
      * rewrite map_app. simpl. apply NoDup_app. split; [done|]. split; [|apply NoDup_singleton]. intros pk Hin ->%elem_of_list_singleton.
        apply elem_of_list_fmap in Hin as (b0 & Heq & Hin). rewrite Forall_forall in H4. apply (H4 _ Hin i); [left|]. by rewrite <- Heq.
      * apply Forall_app. split; [done|]. by apply Forall_singleton.
  - done.
Qed.
Lemma walk_ok_shuffle qs0 qs p fl c p' fl' c' todo todo' out : Permutation todo' todo -> walk_ok qs0 qs p fl c (QWalk p' fl' c' todo out) -> walk_ok qs0 qs p fl c (QWalk p' fl' c' todo' out).
Proof.
  simpl. intros Hp (H1 & H2 & H3 & H4 & H5 & H6). split_and!; try tauto; [by rewrite Hp|by rewrite Hp|].
  eapply Forall_impl; [exact H4|]. simpl. intros b0 H0 k Hk. apply H0. by rewrite <- Hp.
Qed.
Lemma walk_step qs0 qs qs' j p fl c q : cok (qs_cs qs) -> P qs -> R qs0 qs -> qs_q qs !! j = Some q -> walk_ok qs0 qs p fl c q -> qstep E qs (Done qs') -> R qs qs' ->
  exists q', qs_q qs' !! j = Some q' /\ walk_ok qs0 qs' p fl c q'.
Proof.
  intros Hc HP Hr Hj Hw Hs Hone. destruct (qstep_inv _ _ _ Hs) as [(F & k & cs1 & H & ->)|[He Hcase]].
  { exists q. split; [done|]. by eapply walk_ok_other. }
  destruct Hcase as [(F & k & q0 & q' & Hk & Hp & Hq)|[(k & p' & fl' & c' & todo & todo' & out & Hk & Hp & Hq)|(p' & fl' & c' & Hq)]]; rewrite Hq.
  - destruct (decide (k = j)) as [->|Hne].
    + rewrite Hj in Hk. injection Hk as <-. rewrite list_lookup_insert by (by eapply lookup_lt_Some). exists q'. split; [done|].
      eapply walk_ok_same; [exact He|exact Hone|]. by eapply walk_ok_piece.
    + rewrite list_lookup_insert_ne by done. exists q. split; [done|]. by eapply walk_ok_same.
  - destruct (decide (k = j)) as [->|Hne].
    + rewrite Hj in Hk. injection Hk as ->. rewrite list_lookup_insert by (by eapply lookup_lt_Some). eexists. split; [done|].
      eapply walk_ok_same; [exact He|exact Hone|]. by eapply walk_ok_shuffle.
    + rewrite list_lookup_insert_ne by done. exists q. split; [done|]. by eapply walk_ok_same.
  - exists q. split; [by apply lookup_app_l_Some|]. by eapply walk_ok_same.
Qed.
Lemma one_other qs F j cs1 qs2 : P qs -> cstep (qs_cs qs) F j (Done cs1) -> Fok F -> (forall a c, cs_thr cs1 = cs_thr (qs_cs qs) ++ [TUpd a c] -> Aok a) ->
  R (QS cs1 (qs_q qs)) qs2 -> R qs (QS cs1 (qs_q qs)).
Proof. intros. eapply qw_other; eauto. constructor. by eapply world_first. Qed.
Lemma one_query qs qs1 qs2 : P qs -> qstep E qs (Done qs1) -> qs_cs qs1 = qs_cs qs -> R qs1 qs2 -> R qs qs1.
Proof. intros. eapply qw_query; eauto. constructor. by eapply world_first. Qed.
Lemma walk_world qs0 qs qs' j p fl c q : cok (qs_cs qs) -> R qs0 qs -> qs_q qs !! j = Some q -> walk_ok qs0 qs p fl c q -> R qs qs' ->
  exists q', qs_q qs' !! j = Some q' /\ walk_ok qs0 qs' p fl c q'.
Proof.
  intros Hc Hr Hj Hw H. revert q Hc Hr Hj Hw. induction H as [|qs F k cs1 qs2 HP Hs HF Hcall Hrest IH|qs qs1 qs2 HP Hs He Hrest IH]; intros q Hc Hr Hj Hw; [eauto|..].
  - pose proof (one_other _ _ _ _ _ HP Hs HF Hcall Hrest) as Hone. pose proof (qother E qs F k cs1 Hs) as Hqs.
    destruct (walk_step _ _ _ _ _ _ _ _ Hc HP Hr Hj Hw Hqs Hone) as (q' & Hj' & Hw'). eapply IH; [by eapply qok_step|by eapply world_trans|done..].
  - pose proof (one_query _ _ _ HP Hs He Hrest) as Hone.
    destruct (walk_step _ _ _ _ _ _ _ _ Hc HP Hr Hj Hw Hs Hone) as (q' & Hj' & Hw'). eapply IH; [by eapply qok_step|by eapply world_trans|done..].
Qed.
End way.

(** ** Nothing is missed *)
Definition found (pk : pubkey) (qs : qstate) (q : qthr) : Prop :=
  match q with
  | QWalk _ _ _ todo out => (exists i, st_index (cs_st (qs_cs qs)) !! pk = Some i /\ i ∈ todo) \/ exists b, b ∈ out /\ d_pubkey b = pk
  | QEnd (ROk out) => exists b, b ∈ out /\ d_pubkey b = pk
  | _ => True
  end.
(** What holds of the store as long as accounts have one owner. *)
Definition steady (own_of : pubkey -> pubkey) (cs : cstate) : Prop :=
  cok cs /\ Q (fun a => one_owner own_of a /\ honest E a) cs /\ oinv own_of (cs_st cs) (cs_pend cs).
Lemma Q_impl (P P' : acct -> Prop) cs : (forall a, P a -> P' a) -> Q P cs -> Q P' cs.
Proof.
  intros H [H1 H2]. split.
  - intros j t Hj. specialize (H1 j t Hj). destruct t; auto.
  - intros i b Hb. destruct (H2 i b Hb) as (? & ? & ?). split_and!; eauto.
Qed.
Lemma steady_step own_of cs F j cs' : steady own_of cs -> cstep cs F j (Done cs') -> no_closed F ->
  (forall a c, cs_thr cs' = cs_thr cs ++ [TUpd a c] -> one_owner own_of a /\ honest E a) -> steady own_of cs'.
Proof.
  intros (Hc & HQ & HO) Hs HF Hcall. split_and!.
  - by destruct (cok_step _ _ _ _ Hc Hs) as (? & [= <-] & ? & _).
  - by eapply step_Q.
  - eapply step_oinv; [exact Hc| |exact HF|exact HO|exact Hs]. eapply Q_impl; [|exact HQ]. by intros a [H _].
Qed.
Lemma steady_empty own_of : steady own_of cs_empty.
Proof. split_and!; [apply cok_empty|apply Q_empty|apply oinv_empty]. Qed.
Lemma steady_world own_of P qs qs' : steady own_of (qs_cs qs) -> world no_closed (fun a => one_owner own_of a /\ honest E a) P qs qs' -> steady own_of (qs_cs qs').
Proof.
  intros H Hw. induction Hw as [|qs F j cs1 qs2 _ Hs HF Hcall _ IH|qs qs1 qs2 _ Hs He _ IH]; [done|..].
  - apply IH. by eapply steady_step.
  - apply IH. by rewrite He.
Qed.
Lemma due_owner own_of p fl c pk qs : steady own_of (qs_cs qs) -> due E p fl c pk qs ->
  exists i b x, st_index (cs_st (qs_cs qs)) !! pk = Some i /\ st_accounts (cs_st (qs_cs qs)) !! i = Some b /\ bc_get b c = Some x /\
    i ∈ own (st_owners (cs_st (qs_cs qs))) p /\ d_owner x = p /\ meets E fl x /\ honest E x /\ alive x /\ d_pubkey x = pk.
Proof.
  intros (Hc & HQ & HO) (x & Hx & Hal & Ho & Hm). apply version_at_inv in Hx as (i & b & Hi & Hb & Hg). exists i, b, x.
  pose proof (vo_ok _ _ (co_vok _ Hc)) as Hok. pose proof (so_bc _ Hok i b Hb) as Hbc.
  destruct (bc_all_get _ b c x Hbc (proj2 HQ i b Hb) Hg) as [Hone Hh].
  destruct (so_pk _ Hok pk i b (virt_index_of _ _ _ _ Hi) Hb) as [Hall _]. pose proof (bc_all_get _ b c x Hbc Hall Hg) as Hpk. simpl in Hpk.
  split_and!; try done. rewrite <- Ho, (Hone Hal), Hpk. exact (oi_ix _ _ _ HO _ _ Hi).
Qed.
Lemma found_piece own_of F p fl c pk qs q q' : steady own_of (qs_cs qs) -> due E p fl c pk qs ->
  match q with QGpa p' fl' c' | QOwn p' fl' c' | QSet p' fl' c' | QWalk p' fl' c' _ _ => p' = p /\ fl' = fl /\ c' = c | _ => True end ->
  found pk qs q -> qpiece E F (cs_st (qs_cs qs)) q = Some (Done q') -> found pk qs q'.
Proof.
  intros Hst Hd Hq Hf Hp. destruct (due_owner _ _ _ _ _ _ Hst Hd) as (i & b & x & Hi & Hb & Hg & Hown & Ho & Hm & Hh & Hal & Hpk).
  destruct q as [p' fl' c'|p' fl' c'|p' fl' c'|p' fl' c' [|k todo] out|r]; simpl in Hq, Hp; try (destruct Hq as (-> & -> & ->)).
  - injection Hp as <-. by destruct (fl_contains _ _).
  - injection Hp as <-. unfold own in Hown. destruct (st_owners _ !! p); [done|]. simpl in Hown. set_solver.
  - injection Hp as <-. left. exists i. split; [done|]. by apply elem_of_elements.
  - injection Hp as <-. destruct Hf as [(i' & _ & H)|H]; [by apply elem_of_nil in H|done].
  - destruct (st_accounts (cs_st (qs_cs qs)) !! k) as [b'|] eqn:Hb'; [|done]. simpl in Hp. destruct (gpa_entry E b' c p fl) as [l|] eqn:Hl; [|done]. simpl in Hp. injection Hp as <-. simpl.
    destruct Hf as [(i' & Hi' & Hin)|(y & Hy & Hyp)]; [|right; exists y; split; [apply elem_of_app; by left|done]].
    rewrite Hi in Hi'. injection Hi' as <-. apply elem_of_cons in Hin as [->|Hin]; [|left; eauto].
    rewrite Hb in Hb'. injection Hb' as <-. destruct (gpa_entry_complete _ _ _ _ _ _ _ Hl Hg Ho Hm Hh) as (y & -> & Hs); [done|]. right. exists y. split; [set_solver|]. by rewrite (proj1 Hs).
  - done.
Qed.
Lemma found_world own_of (P : qstate -> Prop) p fl c pk qs0 qs qs' j q : let Aok := fun a => one_owner own_of a /\ honest E a in
  (forall s, P s -> due E p fl c pk s) ->
  steady own_of (qs_cs qs) -> world no_closed Aok P qs0 qs -> qs_q qs !! j = Some q -> walk_ok no_closed Aok P qs0 qs p fl c q -> found pk qs q ->
  world no_closed Aok P qs qs' -> exists q', qs_q qs' !! j = Some q' /\ walk_ok no_closed Aok P qs0 qs' p fl c q' /\ found pk qs' q'.
Proof.
  intros Aok HPd Hst Hr Hj Hw Hf H. revert q Hst Hr Hj Hw Hf. induction H as [|qs F k cs1 qs2 HP Hs HF Hcall Hrest IH|qs qs1 qs2 HP Hs He Hrest IH]; intros q Hst Hr Hj Hw Hf; [eauto|..].
  - pose proof (one_other _ _ _ _ _ _ _ _ HP Hs HF Hcall Hrest) as Hone.
    eapply (IH q); [by eapply steady_step|by eapply world_trans|done|eapply walk_ok_other; [exact (proj1 Hst)|exact Hs|done|done]|].
    apply world_first, HPd in Hrest. destruct (due_owner _ _ _ _ _ _ Hst (HPd _ HP)) as (i & b & x & Hi & _).
    assert (st_index (cs_st cs1) !! pk = Some i) as Hi1.
    { destruct (entry_kept _ _ _ _ _ _ (proj1 Hst) Hs Hi) as [?|[Hn _]]; [done|]. destruct Hrest as (y & Hy & _). rewrite no_version in Hy by done. done. }
    destruct q as [| | |p' fl' c' todo out|r]; try done. simpl in *. destruct Hf as [(i' & Hi' & Hin)|Hf]; [left|by right]. exists i'. split; [congruence|done].
  - pose proof (one_query _ _ _ _ _ _ HP Hs He Hrest) as Hone.
    assert (exists q', qs_q qs1 !! j = Some q' /\ found pk qs q' ) as (q' & Hj' & Hf').
    { destruct (qstep_inv _ _ _ Hs) as [(F & k & cs1 & H & ->)|[_ Hcase]]; [by exists q|].
      destruct Hcase as [(F & k & q0 & q' & Hk & Hp & Hq)|[(k & p' & fl' & c' & todo & todo' & out & Hk & Hp & Hq)|(p' & fl' & c' & Hq)]]; rewrite Hq.
      - destruct (decide (k = j)) as [->|Hne]; [|rewrite list_lookup_insert_ne by done; eauto].
        rewrite Hj in Hk. injection Hk as <-. rewrite list_lookup_insert by (by eapply lookup_lt_Some). exists q'. split; [done|].
        eapply found_piece; [exact Hst|exact (HPd _ HP)| |exact Hf|exact Hp]. destruct q as [| | |? ? ? ? ?|]; simpl in Hw; try done; tauto.
      - destruct (decide (k = j)) as [->|Hne]; [|rewrite list_lookup_insert_ne by done; eauto].
        rewrite Hj in Hk. injection Hk as ->. rewrite list_lookup_insert by (by eapply lookup_lt_Some). eexists. split; [done|].
        simpl in *. destruct Hf as [(i' & Hi' & Hin)|Hf]; [left|by right]. exists i'. split; [done|]. by rewrite Hp.
      - exists q. split; [by apply lookup_app_l_Some|done]. }
    destruct (walk_step _ _ _ _ _ _ _ _ _ _ _ (proj1 Hst) HP Hr Hj Hw Hs Hone) as (q2 & Hj2 & Hw2). rewrite Hj' in Hj2. injection Hj2 as <-.
    eapply (IH q'); [by rewrite He|by eapply world_trans|done|done|].
    destruct q' as [| | |p' fl' c' todo out|r]; try done. simpl in *. by rewrite He.
Qed.

(** ** No query panics on usable data *)
Lemma query_nopanic qs F j q : cok (qs_cs qs) -> Q (usable E) (qs_cs qs) -> qs_q qs !! j = Some q ->
  match q with QWalk _ fl _ todo _ => Forall (fun k => (k < len qs)%nat) todo /\ (forall l, fl = Some l -> Forall (decodable_cond E) l) | _ => True end ->
  qpiece E F (cs_st (qs_cs qs)) q <> Some Panic.
Proof.
  intros Hc HQ Hj Hq. destruct q as [p' fl' c'|p' fl' c'|p' fl' c'|p' fl' c' [|i todo] out|r]; simpl; try done.
  destruct Hq as [Hb Hdec]. apply Forall_cons in Hb as [Hlt _]. destruct (lookup_lt_is_Some_2 _ i Hlt) as [b Hb]. rewrite Hb. simpl.
  destruct (gpa_entry_total E b c' p' fl') as [l ->]; [exact (so_bc _ (vo_ok _ _ (co_vok _ Hc)) i b Hb)|exact (proj2 HQ i b Hb)|done|done].
Qed.
End walk.

(** ** While nothing is written *)
Lemma gpa_loop_snoc E accs c p fl done i b l out : gpa_loop E accs c p fl done = Done out -> accs !! i = Some b -> gpa_entry E b c p fl = Done l ->
  gpa_loop E accs c p fl (done ++ [i]) = Done (out ++ l).
Proof.
  revert out. induction done as [|k done IH]; intros out; simpl.
  - intros [= <-] Hb Hl. rewrite Hb. simpl. rewrite Hl. simpl. by rewrite app_nil_r.
  - destruct (accs !! k) as [b'|]; [|done]. simpl. destruct (gpa_entry E b' c p fl) as [l'|]; [|done]. simpl.
    destruct (gpa_loop E accs c p fl done) as [ls|]; [|done]. simpl. intros [= <-] Hb Hl. rewrite (IH ls eq_refl Hb Hl). simpl. by rewrite app_assoc.
Qed.
Lemma gpa_loop_perm E accs c p fl l1 l2 out : Permutation l1 l2 -> gpa_loop E accs c p fl l1 = Done out -> exists out', gpa_loop E accs c p fl l2 = Done out' /\ Permutation out out'.
Proof.
  intros H. revert out. induction H as [|i l1 l2 _ IH|i k l|l1 l2 l3 _ IH1 _ IH2]; intros out; simpl.
  - intros [= <-]. eauto.
  - destruct (accs !! i) as [b|]; [|done]. simpl. destruct (gpa_entry E b c p fl) as [l'|]; [|done]. simpl.
    destruct (gpa_loop E accs c p fl l1) as [ls|]; [|done]. simpl. intros [= <-]. destruct (IH ls eq_refl) as (o' & -> & Hp). simpl. eexists. split; [done|]. by rewrite Hp.
  - destruct (accs !! k) as [b|]; [|done]. simpl. destruct (gpa_entry E b c p fl) as [l'|]; [|done]. simpl.
    destruct (accs !! i) as [b2|]; [|done]. simpl. destruct (gpa_entry E b2 c p fl) as [l2|]; [|done]. simpl.
    destruct (gpa_loop E accs c p fl l) as [ls|]; [|done]. simpl. intros [= <-]. eexists. split; [done|]. rewrite !app_assoc. by rewrite (Permutation_app_comm l' l2).
  - intros H. destruct (IH1 _ H) as (o1 & H1 & Hp1). destruct (IH2 _ H1) as (o2 & H2 & Hp2). exists o2. split; [done|]. by rewrite Hp1.
Qed.
Definition still_ok (E : ext) (st : store) (p : pubkey) (fl : option (list cond)) (c : commitment) (q : qthr) : Prop :=
  match q with
  | QGpa p' fl' c' | QOwn p' fl' c' | QSet p' fl' c' => p' = p /\ fl' = fl /\ c' = c
  | QWalk p' fl' c' todo out => (p' = p /\ fl' = fl /\ c' = c) /\
      exists seen, Permutation (seen ++ todo) (elements (own (st_owners st) p)) /\ gpa_loop E (st_accounts st) c p fl seen = Done out
  | QEnd (ROk out) => exists out', gpa_loop E (st_accounts st) c p fl (elements (own (st_owners st) p)) = Done out' /\ Permutation out out'
  | QEnd (RErr e) => e = ConfigDoesnotContainRequiredFilters
  end.
Lemma still_piece E F st p fl c q q' : still_ok E st p fl c q -> qpiece E F st q = Some (Done q') -> still_ok E st p fl c q'.
Proof.
  destruct q as [p' fl' c'|p' fl' c'|p' fl' c'|p' fl' c' [|i todo] out|r]; simpl.
  - intros (-> & -> & ->) [= <-]. by destruct (fl_contains _ _).
  - intros (-> & -> & ->) [= <-]. destruct (st_owners st !! p) as [s|] eqn:Ho; [done|]. exists []. split; [|done]. unfold own. by rewrite Ho.
  - intros (-> & -> & ->) [= <-]. simpl. split; [done|]. exists []. done.
  - intros [_ (seen & Hp & Hl)] [= <-]. simpl. rewrite app_nil_r in Hp. by eapply gpa_loop_perm.
  - intros [(-> & -> & ->) (seen & Hp & Hl)]. destruct (st_accounts st !! i) as [b|] eqn:Hb; [|done]. simpl. destruct (gpa_entry E b c p fl) as [l|] eqn:He; [|done]. simpl. intros [= <-]. simpl.
    split; [done|]. exists (seen ++ [i]). split; [by rewrite <- app_assoc|]. by eapply gpa_loop_snoc.
  - done.
Qed.
Lemma still_world E Fok Aok st p fl c qs qs' j q : qs_q qs !! j = Some q -> still_ok E st p fl c q -> qworld E Fok Aok (fun s => cs_st (qs_cs s) = st) qs qs' ->
  exists q', qs_q qs' !! j = Some q' /\ still_ok E st p fl c q'.
Proof.
  intros Hj Hq H. revert q Hj Hq. induction H as [|qs F k cs1 qs2 HP Hs HF Hcall Hrest IH|qs qs1 qs2 HP Hs He Hrest IH]; intros q Hj Hq; [eauto|by eapply IH|].
  destruct (qstep_inv _ _ _ Hs) as [(F & k & cs1 & H & ->)|[_ Hcase]]; [by eapply IH|].
  destruct Hcase as [(F & k & q0 & q' & Hk & Hp & Hqq)|[(k & p' & fl' & c' & todo & todo' & out & Hk & Hp & Hqq)|(p' & fl' & c' & Hqq)]].
  - destruct (decide (k = j)) as [->|Hne].
    + rewrite Hj in Hk. injection Hk as <-. eapply (IH q'); [rewrite Hqq; apply list_lookup_insert; by eapply lookup_lt_Some|]. rewrite HP in Hp. by eapply still_piece.
    + eapply (IH q); [rewrite Hqq; by rewrite list_lookup_insert_ne|done].
  - destruct (decide (k = j)) as [->|Hne].
    + rewrite Hj in Hk. injection Hk as ->. eapply IH; [rewrite Hqq; apply list_lookup_insert; by eapply lookup_lt_Some|]. simpl in *. destruct Hq as [H1 (seen & H2 & H3)]. split; [done|].
      exists seen. split; [by rewrite Hp|done].
    + eapply (IH q); [rewrite Hqq; by rewrite list_lookup_insert_ne|done].
  - eapply (IH q); [rewrite Hqq; by apply lookup_app_l_Some|done].
Qed.

(** Invariants of the account store. *)
From Verif Require Import Base SMap DataModel FilterModel FilterSpec FilterProofs BincodeModel
  ByCommitModel ByCommitSpec ByCommitProofs StoreModel StoreSpec.

(** Every version kept in an entry satisfies [P]. *)
Definition bc_all (P : acct -> Prop) (b : bycom) : Prop :=
  (forall k a, sm_get k (bc_proc b) = Some a -> P a) /\
  (forall a, bc_conf b = Some a -> P a) /\ (forall a, bc_fin b = Some a -> P a).
Lemma bc_all_get P b c a : bc_ok b -> bc_all P b -> bc_get b c = Some a -> P a.
Proof.
  intros Hok (H1 & H2 & H3). destruct c; simpl; auto.
  destruct (last (bc_proc b)) as [[k p]|] eqn:Hl; [|auto]. intros [= ->].
  apply sm_last_spec in Hl as [Hg _]; [eauto|by apply ok_sorted].
Qed.
Lemma bc_pk_get pk b c a : bc_ok b -> bc_all (fun a => d_pubkey a = pk) b -> bc_get b c = Some a -> d_pubkey a = pk.
Proof. exact (bc_all_get _ b c a). Qed.
Lemma bc_all_empty P : bc_all P bc_empty.
Proof. split_and!; done. Qed.
Lemma bc_all_update P b a c : bc_all P b -> P a -> bc_all P (bc_update b a c).1.
Proof.
  intros (H1 & H2 & H3) Ha. rewrite bc_update_unfold. unfold bc_all. simpl. split_and!.
  - intros k p. destruct (N.eq_dec k (d_slot a)) as [->|Hk].
    + destruct (upd_proc_get b a) as (p' & -> & _ & [->|Hp]); intros [= ->]; eauto.
    + rewrite upd_proc_get_ne by done. eauto.
  - intros x. unfold upd_conf. destruct c; [eauto| |]; destruct (newer _ _); naive_solver.
  - intros x. unfold upd_fin. destruct c; [eauto|eauto|]; destruct (newer _ _); naive_solver.
Qed.
Lemma bc_all_promote P b s c : bc_ok b -> bc_all P b -> bc_all P (bc_promote b s c).1.
Proof.
  intros Hok (H1 & H2 & H3). unfold bc_all. rewrite bc_promote_proc, bc_promote_conf, bc_promote_fin.
  assert (forall o x, (forall y, o = Some y -> P y) -> take_over b s o = Some x -> P x) as Ht.
  { intros o x Ho. unfold take_over. destruct (sm_get s (bc_proc b)) as [a|] eqn:Hg; [|auto].
    destruct (promoted_cases o a) as (y & -> & [->|Hy] & _); intros [= ->]; eauto. }
  split_and!.
  - intros k a Hg. destruct c; eauto. apply prune_get_sub in Hg; [eauto|by apply ok_sorted].
  - intros x. destruct c; eauto.
  - intros x. destruct c; eauto.
Qed.

Record st_ok (st : store) : Prop := StOk {
  so_bound : forall pk i, st_index st !! pk = Some i -> (i < length (st_accounts st))%nat;
  so_inj : forall pk pk' i, st_index st !! pk = Some i -> st_index st !! pk' = Some i -> pk = pk';
  so_bc : forall i b, st_accounts st !! i = Some b -> bc_ok b;
  so_pk : forall pk i b, st_index st !! pk = Some i -> st_accounts st !! i = Some b ->
            bc_all (fun a => d_pubkey a = pk) b /\ bc_proc b <> [];
  so_orphan : forall i b, st_accounts st !! i = Some b ->
            (forall pk, st_index st !! pk <> Some i) -> b = bc_empty;
  so_owners : forall p s i, st_owners st !! p = Some s -> i ∈ s -> (i < length (st_accounts st))%nat;
  so_slots : forall s ss i, st_slots st !! s = Some ss -> i ∈ ss_accounts ss ->
            (i < length (st_accounts st))%nat;
}.

Lemma st_ok_empty : st_ok store_empty.
Proof. constructor; simpl; intros *; rewrite ?lookup_empty, ?lookup_nil; done. Qed.

Lemma so_entry st pk i : st_ok st -> st_index st !! pk = Some i ->
  exists b, st_accounts st !! i = Some b /\ bc_ok b /\ bc_all (fun a => d_pubkey a = pk) b /\ bc_proc b <> [].
Proof.
  intros Hok Hi. destruct (lookup_lt_is_Some_2 (st_accounts st) i) as [b Hb]; [by eapply so_bound|].
  exists b. split; [done|]. split; [by eapply so_bc|]. by eapply so_pk.
Qed.

(** ** Owner sets *)
Definition own (ow : gmap pubkey (gset nat)) (p : pubkey) : gset nat := default ∅ (ow !! p).
Lemma own_add ow i p q : own (add_owner ow i p) q = if decide (p = q) then {[i]} ∪ own ow p else own ow q.
Proof. unfold own, add_owner. destruct (decide (p = q)) as [->|]; by simplify_map_eq. Qed.
Lemma own_remove ow i p q :
  own (alter (fun s => s ∖ {[i]}) p ow) q = if decide (p = q) then own ow p ∖ {[i]} else own ow q.
Proof.
  unfold own. destruct (decide (p = q)) as [->|].
  - rewrite lookup_alter. destruct (ow !! q); simpl; set_solver.
  - by rewrite lookup_alter_ne.
Qed.

(** What [update_owner_delete_if_necessary] does. *)
Lemma update_owner_delete_spec F ow prev new i c : d_pubkey prev = d_pubkey new ->
  exists ow' del, update_owner_delete F ow prev new i c = Done (ow', del) /\
    (del = true <-> c = Finalized /\ d_owner prev <> d_owner new /\ (is_deleted new = true \/ fl_sat F new = false)) /\
    (forall p j, j <> i -> j ∈ own ow' p <-> j ∈ own ow p) /\
    (forall p, i ∈ own ow' p <->
       (i ∈ own ow p /\ ~ (c = Finalized /\ d_owner prev <> d_owner new /\ p = d_owner prev)) \/
       (p = d_owner new /\ d_owner prev <> d_owner new /\ is_deleted new = false /\ fl_sat F new = true)).
Proof.
  intros Hpk. unfold update_owner_delete. rewrite bool_decide_true by done.
  destruct (decide (d_owner prev = d_owner new)) as [Ho|Ho].
  { rewrite bool_decide_true by done. exists ow, false. split; [done|]. split_and!; naive_solver. }
  rewrite bool_decide_false by done.
  set (ow1 := match c with Finalized => alter (fun s => s ∖ {[i]}) (d_owner prev) ow | _ => ow end).
  assert (forall p j, j ∈ own ow1 p <-> j ∈ own ow p /\ ~ (c = Finalized /\ p = d_owner prev /\ j = i)) as H1.
  { intros p j. unfold ow1. destruct c; [naive_solver..|]. rewrite own_remove.
    destruct (decide (d_owner prev = p)) as [<-|]; set_solver. }
  destruct (decide (c = Finalized)) as [->|Hc].
  - rewrite bool_decide_true by done. destruct (is_deleted new) eqn:Hd; simpl.
    + exists ow1, true. split; [done|]. split_and!.
      * naive_solver.
      * intros p j Hj. rewrite H1. naive_solver.
      * intros p. rewrite H1. naive_solver.
    + destruct (fl_sat F new) eqn:Hs; simpl.
      * exists (add_owner ow1 i (d_owner new)), false. split; [done|]. split_and!.
        -- naive_solver.
        -- intros p j Hj. rewrite own_add. destruct (decide (d_owner new = p)) as [<-|].
           ++ rewrite elem_of_union, elem_of_singleton, H1. naive_solver.
           ++ rewrite H1. naive_solver.
        -- intros p. rewrite own_add. destruct (decide (d_owner new = p)) as [<-|].
           ++ rewrite elem_of_union, elem_of_singleton, H1. naive_solver.
           ++ rewrite H1. naive_solver.
      * exists ow1, true. split; [done|]. split_and!.
        -- naive_solver.
        -- intros p j Hj. rewrite H1. naive_solver.
        -- intros p. rewrite H1. naive_solver.
  - rewrite (bool_decide_false (c = Finalized)) by done. simpl.
    destruct (is_deleted new) eqn:Hd; simpl.
    + exists ow1, false. split; [done|]. split_and!.
      * naive_solver.
      * intros p j Hj. rewrite H1. naive_solver.
      * intros p. rewrite H1. naive_solver.
    + destruct (fl_sat F new) eqn:Hs; simpl.
      * exists (add_owner ow1 i (d_owner new)), false. split; [done|]. split_and!.
        -- naive_solver.
        -- intros p j Hj. rewrite own_add. destruct (decide (d_owner new = p)) as [<-|].
           ++ rewrite elem_of_union, elem_of_singleton, H1. naive_solver.
           ++ rewrite H1. naive_solver.
        -- intros p. rewrite own_add. destruct (decide (d_owner new = p)) as [<-|].
           ++ rewrite elem_of_union, elem_of_singleton, H1. naive_solver.
           ++ rewrite H1. naive_solver.
      * exists ow1, false. split; [done|]. split_and!.
        -- naive_solver.
        -- intros p j Hj. rewrite H1. naive_solver.
        -- intros p. rewrite H1. naive_solver.
Qed.

(** ** Slot statuses *)
Lemma add_to_status_spec sl s i c sl' c' : add_to_status sl s i c = (sl', c') ->
  c' = match c with Finalized => Finalized | _ => match sl !! s with Some ss => ss_commit ss | None => c end end /\
  (forall t, t <> s -> sl' !! t = sl !! t) /\
  exists ss', sl' !! s = Some ss' /\
    ss_commit ss' = match sl !! s with Some ss => ss_commit ss | None => c end /\
    ss_parent ss' = (ss ← sl !! s; ss_parent ss) /\
    (forall j, j ∈ ss_accounts ss' <->
       (exists ss, sl !! s = Some ss /\ j ∈ ss_accounts ss) \/ (j = i /\ c <> Finalized)).
Proof.
  unfold add_to_status.
  destruct (sl !! s) as [ss|] eqn:Hs; simpl; destruct c; intros [= <- <-]; (split; [done|]);
    (split; [intros; by rewrite lookup_insert_ne|]); rewrite lookup_insert; eexists; (split; [done|]); simpl;
    (split; [done|]); (split; [done|]); intros j; set_solver.
Qed.

(** ** The cases of [update_account] *)
Inductive upd_case (F : filt) (st : store) (a : acct) (c : commitment) : store -> bool -> Prop :=
| UReject : st_index st !! d_pubkey a = None -> fl_sat F a = false -> upd_case F st a c st false
| UNew sl' c0 : st_index st !! d_pubkey a = None -> fl_sat F a = true ->
    add_to_status (st_slots st) (d_slot a) (length (st_accounts st)) c = (sl', c0) ->
    upd_case F st a c
      (Store (<[d_pubkey a := length (st_accounts st)]> (st_index st))
             (add_owner (st_owners st) (length (st_accounts st)) (d_owner a)) sl'
             (st_accounts st ++ [bc_new a c])) true
| UOld i b sl' c' b' upd ow' : st_index st !! d_pubkey a = Some i -> st_accounts st !! i = Some b ->
    add_to_status (st_slots st) (d_slot a) i c = (sl', c') ->
    bc_update b a c' = (b', upd) ->
    (forall prev, upd = true -> bc_get b c' = Some prev ->
       update_owner_delete F (st_owners st) prev a i c' = Done (ow', false)) ->
    (upd = false \/ bc_get b c' = None -> ow' = st_owners st) ->
    upd_case F st a c (Store (st_index st) ow' sl' (<[i := b']> (st_accounts st))) upd
| UDel i b sl' c' b' prev ow' : st_index st !! d_pubkey a = Some i -> st_accounts st !! i = Some b ->
    add_to_status (st_slots st) (d_slot a) i c = (sl', c') ->
    bc_update b a c' = (b', true) -> bc_get b c' = Some prev ->
    update_owner_delete F (st_owners st) prev a i c' = Done (ow', true) ->
    upd_case F st a c (Store (delete (d_pubkey a) (st_index st)) ow' sl' (<[i := bc_empty]> (st_accounts st))) true.

Lemma update_account_cases F st a c : st_ok st ->
  exists st' r, update_account F st a c = Done (st', r) /\ upd_case F st a c st' r.
Proof.
  intros Hok. unfold update_account, maybe_update_status, contains_key.
  destruct (st_index st !! d_pubkey a) as [i|] eqn:Hi.
  - rewrite bool_decide_true by eauto. rewrite andb_false_r.
    destruct (add_to_status (st_slots st) (d_slot a) i c) as [sl' c'] eqn:Hadd.
    destruct (so_entry st _ _ Hok Hi) as (b & Hb & Hbc & Hall & Hne). rewrite Hb. simpl.
    destruct (bc_update b a c') as [b' upd] eqn:Hu. destruct upd.
    + destruct (bc_get b c') as [prev|] eqn:Hprev.
      * destruct (update_owner_delete_spec F (st_owners st) prev a i c') as (ow' & del & Hud & _).
        { by eapply (bc_pk_get _ b c'). }
        rewrite Hud. simpl. destruct del.
        -- do 2 eexists. split; [done|]. eapply UDel; eauto.
        -- do 2 eexists. split; [done|]. eapply UOld; eauto; naive_solver.
      * do 2 eexists. split; [done|]. eapply UOld; eauto; naive_solver.
    + do 2 eexists. split; [done|]. eapply UOld; eauto; naive_solver.
  - rewrite bool_decide_false by (intros [? ?]; congruence). rewrite andb_true_r.
    destruct (fl_sat F a) eqn:Hs.
    + rewrite andb_false_r. destruct (add_to_status _ _ _ _) as [sl' c0] eqn:Hadd.
      do 2 eexists. split; [done|]. eapply UNew; eauto.
    + destruct st. simpl. destruct (negb (is_deleted a)); simpl; do 2 eexists; (split; [done|]); by apply UReject.
Qed.
Lemma update_account_inv F st a c st' r : st_ok st ->
  update_account F st a c = Done (st', r) -> upd_case F st a c st' r.
Proof. intros Hok H. destruct (update_account_cases F st a c Hok) as (? & ? & H' & Hc). congruence. Qed.

Lemma owners_bound (ow ow' : gmap pubkey (gset nat)) i n n' : (forall p s j, ow !! p = Some s -> j ∈ s -> (j < n)%nat) -> (n <= n')%nat ->
  (i < n')%nat -> (forall p j, j <> i -> j ∈ own ow' p <-> j ∈ own ow p) ->
  forall p s j, ow' !! p = Some s -> j ∈ s -> (j < n')%nat.
Proof.
  intros Hb Hn Hi Hfr p s j Hs Hj. destruct (decide (j = i)) as [->|Hne]; [done|].
  assert (j ∈ own ow' p) as H by (unfold own; by rewrite Hs). apply Hfr in H; [|done]. unfold own in H.
  destruct (ow !! p) as [s0|] eqn:H0; [|set_solver]. simpl in H. specialize (Hb _ _ _ H0 H). lia.
Qed.
Lemma slots_bound sl s i c sl' c' n n' :
  (forall t ss j, sl !! t = Some ss -> j ∈ ss_accounts ss -> (j < n)%nat) -> (n <= n')%nat -> (i < n')%nat ->
  add_to_status sl s i c = (sl', c') ->
  forall t ss j, sl' !! t = Some ss -> j ∈ ss_accounts ss -> (j < n')%nat.
Proof.
  intros Hb Hn Hi Hadd t ss j Ht Hj. apply add_to_status_spec in Hadd as (_ & Hfr & ss' & Hs' & _ & _ & Hacc).
  destruct (decide (t = s)) as [->|Hne].
  - rewrite Hs' in Ht. injection Ht as <-. apply Hacc in Hj as [(ss0 & H0 & Hj)|[-> _]]; [|done].
    specialize (Hb _ _ _ H0 Hj). lia.
  - rewrite Hfr in Ht by done. specialize (Hb _ _ _ Ht Hj). lia.
Qed.
Lemma upd_case_ok F st a c st' r : st_ok st -> upd_case F st a c st' r -> st_ok st'.
Proof.
  intros Hok Hcase. destruct Hcase as [Hi Hs|sl' c0 Hi Hs Hadd|i b sl' c' b' upd ow' Hi Hb Hadd Hu Hud Hud0|i b sl' c' b' prev ow' Hi Hb Hadd Hu Hprev Hud].
  - done.
  - set (n := length (st_accounts st)) in *.
    assert (n < n + 1)%nat by lia. assert (n <= n + 1)%nat by lia.
    assert (forall pk, st_index st !! pk <> Some n) as Hfresh.
    { intros pk H'. apply (so_bound _ Hok) in H'. unfold n in H'. lia. }
    constructor; simpl; rewrite ?app_length; simpl.
    + intros pk i. destruct (decide (pk = d_pubkey a)) as [->|]; simplify_map_eq; [naive_solver lia|].
      intros H'%(so_bound _ Hok). unfold n in *. lia.
    + intros pk pk' i. destruct (decide (pk = d_pubkey a)) as [->|], (decide (pk' = d_pubkey a)) as [->|];
        simplify_map_eq; try naive_solver. by apply (so_inj _ Hok).
    + intros i b [Hb|[Hge Hb]]%lookup_app_Some; [by eapply so_bc|].
      apply list_lookup_singleton_Some in Hb as [_ <-]. rewrite bc_new_update. by apply bc_ok_update, bc_ok_empty.
    + intros pk i b. destruct (decide (pk = d_pubkey a)) as [->|]; simplify_map_eq.
      * intros [= <-]. rewrite lookup_app_r by (unfold n; lia). unfold n. rewrite Nat.sub_diag. intros [= <-].
        split; [|done]. rewrite bc_new_update. apply bc_all_update; [apply bc_all_empty|done].
      * intros H1 H2. rewrite lookup_app_l in H2 by (by eapply so_bound). by eapply so_pk.
    + intros i b [Hb|[Hge Hb]]%lookup_app_Some Hno.
      * eapply so_orphan; [done|done|]. intros pk Hpk. destruct (decide (pk = d_pubkey a)) as [->|Hne].
        -- congruence.
        -- apply (Hno pk). by rewrite lookup_insert_ne.
      * apply list_lookup_singleton_Some in Hb as [Hz _]. exfalso. apply (Hno (d_pubkey a)).
        rewrite lookup_insert. f_equal. unfold n in *. lia.
    + eapply (owners_bound (st_owners st) _ n n); [by apply so_owners|lia|lia|].
      intros p j Hj. rewrite own_add. destruct (decide _) as [<-|]; [|done]. set_solver.
    + eapply (slots_bound (st_slots st) _ n c _ _ n); [by apply so_slots|lia|lia|done].
  - assert (i < length (st_accounts st))%nat as Hlt by (by eapply so_bound).
    assert (forall p j, j <> i -> j ∈ own ow' p <-> j ∈ own (st_owners st) p) as Hfr.
    { destruct upd; [|assert (ow' = st_owners st) as -> by (apply Hud0; by left); done].
      destruct (bc_get b c') as [prev|] eqn:Hprev; [|assert (ow' = st_owners st) as -> by (apply Hud0; by right); done].
      specialize (Hud prev eq_refl eq_refl).
      destruct (update_owner_delete_spec F (st_owners st) prev a i c') as (ow2 & del2 & H2 & _ & H3 & _).
      { eapply (bc_pk_get _ b c'); [by eapply so_bc|by eapply so_pk|done]. }
      rewrite Hud in H2. by injection H2 as <- <-. }
    assert (b' = (bc_update b a c').1) as -> by (by rewrite Hu).
    constructor; simpl; rewrite ?insert_length.
    + by apply so_bound.
    + by apply so_inj.
    + intros j bj Hj. destruct (decide (j = i)) as [->|Hne].
      * rewrite list_lookup_insert in Hj by done. injection Hj as <-. apply bc_ok_update. by eapply so_bc.
      * rewrite list_lookup_insert_ne in Hj by done. by eapply so_bc.
    + intros pk j bj Hpk Hj. destruct (decide (j = i)) as [->|Hne].
      * assert (pk = d_pubkey a) as -> by (by eapply so_inj).
        rewrite list_lookup_insert in Hj by done. injection Hj as <-. split.
        -- apply bc_all_update; [|done]. by eapply so_pk.
        -- rewrite bc_update_unfold. simpl. intros Hn. destruct (upd_proc_get b a) as (? & H & _). by rewrite Hn in H.
      * rewrite list_lookup_insert_ne in Hj by done. by eapply so_pk.
    + intros j bj Hj Hno. destruct (decide (j = i)) as [->|Hne]; [by destruct (Hno (d_pubkey a))|].
      rewrite list_lookup_insert_ne in Hj by done. by eapply so_orphan.
    + eapply (owners_bound (st_owners st) _ i _); [by apply so_owners|done|done|done].
    + eapply (slots_bound (st_slots st) _ i c _ _ _); [by apply so_slots|done|done|done].
  - assert (i < length (st_accounts st))%nat as Hlt by (by eapply so_bound).
    assert (forall p j, j <> i -> j ∈ own ow' p <-> j ∈ own (st_owners st) p) as Hfr.
    { destruct (update_owner_delete_spec F (st_owners st) prev a i c') as (ow2 & del2 & H2 & _ & H3 & _).
      { eapply (bc_pk_get _ b c'); [by eapply so_bc|by eapply so_pk|done]. }
      rewrite Hud in H2. by injection H2 as <- <-. }
    constructor; simpl; rewrite ?insert_length.
    + intros pk j [_ H]%lookup_delete_Some. by eapply so_bound.
    + intros pk pk' j [_ H1]%lookup_delete_Some [_ H2]%lookup_delete_Some. by eapply so_inj.
    + intros j bj Hj. destruct (decide (j = i)) as [->|Hne].
      * rewrite list_lookup_insert in Hj by done. injection Hj as <-. apply bc_ok_empty.
      * rewrite list_lookup_insert_ne in Hj by done. by eapply so_bc.
    + intros pk j bj [Hne Hpk]%lookup_delete_Some Hj. destruct (decide (j = i)) as [->|Hne'].
      * destruct Hne. by eapply so_inj.
      * rewrite list_lookup_insert_ne in Hj by done. by eapply so_pk.
    + intros j bj Hj Hno. destruct (decide (j = i)) as [->|Hne].
      * rewrite list_lookup_insert in Hj by done. by injection Hj as <-.
      * rewrite list_lookup_insert_ne in Hj by done. eapply so_orphan; [done..|].
        intros pk Hpk. apply (Hno pk). rewrite lookup_delete_Some. split; [|done]. intros <-. congruence.
    + eapply (owners_bound (st_owners st) _ i _); [by apply so_owners|done|done|done].
    + eapply (slots_bound (st_slots st) _ i c _ _ _); [by apply so_slots|done|done|done].
Qed.
Lemma update_ok F st a c st' r : st_ok st -> update_account F st a c = Done (st', r) -> st_ok st'.
Proof. intros Hok H. eapply upd_case_ok; [done|]. by apply update_account_inv. Qed.

(** ** Slot walk *)
Definition below (sl : gmap N status) (c : commitment) : gmap N status :=
  filter (fun kv => ss_commit kv.2 <> c) sl.
Lemma below_size sl c : (size (below sl c) <= size sl)%nat.
Proof.
  rewrite <- !(size_dom (D := gset N)). apply subseteq_size, subseteq_dom, map_filter_subseteq.
Qed.
Lemma below_flip sl c s ss ss' : sl !! s = Some ss -> ss_commit ss <> c -> ss_commit ss' = c ->
  (size (below (<[s := ss']> sl) c) < size (below sl c))%nat.
Proof.
  intros Hs Hc Hc'. assert (below (<[s:=ss']> sl) c = delete s (below sl c)) as ->.
  { apply map_eq. intros t. unfold below. destruct (decide (t = s)) as [->|Hne].
    - rewrite lookup_delete. apply map_filter_lookup_None. right. intros x.
      rewrite lookup_insert. intros [= <-] H. by apply H.
    - rewrite lookup_delete_ne by done. apply option_eq. intros x.
      rewrite !map_filter_lookup_Some. by rewrite lookup_insert_ne. }
  assert (below sl c !! s = Some ss) as H. { by apply map_filter_lookup_Some. }
  rewrite map_size_delete, H. assert (size (below sl c) <> 0%nat); [|lia].
  intros Hz. apply map_size_empty_inv in Hz. rewrite Hz in H. by rewrite lookup_empty in H.
Qed.
Lemma slot_walk_total fuel sl wa s par ip c : (size (below sl c) < fuel)%nat ->
  is_Some (slot_walk fuel sl wa s par ip c).
Proof.
  revert sl wa s par. induction fuel as [|fuel IH]; intros sl wa s par Hf; [lia|]. cbn [slot_walk].
  destruct (sl !! s) as [ss|] eqn:Hs.
  - case_bool_decide as Hc; [eauto|].
    set (parent := match par with Some _ => par | None => ss_parent ss end).
    assert (size (below (<[s:=Status c (ss_accounts ss) parent]> sl) c) < fuel)%nat.
    { pose proof (below_flip sl c s ss (Status c (ss_accounts ss) parent) Hs Hc eq_refl). lia. }
    destruct c; [eauto| |]; (destruct parent; [by apply IH|eauto]).
  - destruct c; eauto.
Qed.
Lemma slot_phase_total sl si c : is_Some (slot_phase sl si c).
Proof.
  unfold slot_phase.
  destruct (slot_walk_total (S (size sl)) sl ∅ (si_slot si) (Some (si_parent si)) (si_parent si) c) as [[sl' wa] ->].
  - pose proof (below_size sl c). lia.
  - eauto.
Qed.

Lemma in_add (s t : N) (V : gset N) : t ∈ {[s]} ∪ V <-> t = s \/ t ∈ V.
Proof. set_solver. Qed.
(** What the walk visits.  [V] is the set of slots visited so far. *)
Record walk_inv (sl0 : gmap N status) (si : slot_info) (c : commitment) (sl : gmap N status)
    (wa : gmap nat N) (V : gset N) : Prop := WalkInv {
  wi_chain : forall t, t ∈ V -> on_chain sl0 si c t;
  wi_in : forall t, t ∈ V -> exists ss, sl0 !! t = Some ss /\ ss_commit ss <> c /\
            sl !! t = Some (Status c (ss_accounts ss) (parent_of sl0 si t));
  wi_wa : forall i t, wa !! i = Some t -> t ∈ V /\ exists ss, sl0 !! t = Some ss /\ i ∈ ss_accounts ss;
  wi_all : forall i t ss, t ∈ V -> sl0 !! t = Some ss -> i ∈ ss_accounts ss -> is_Some (wa !! i);
  wi_first : descending sl0 si c -> forall i t t' ss, wa !! i = Some t -> t' ∈ V ->
     sl0 !! t' = Some ss -> i ∈ ss_accounts ss -> t' <= t;
}.
Lemma slot_walk_spec sl0 si c fuel sl wa s par V sl' wa' :
  slot_walk fuel sl wa s par (si_parent si) c = Some (sl', wa') ->
  walk_inv sl0 si c sl wa V -> (forall t, t ∉ V -> sl !! t = sl0 !! t) ->
  (descending sl0 si c -> forall t, t ∈ V -> s < t) ->
  (V = ∅ /\ s = si_slot si /\ par = Some (si_parent si)) \/
  (par = None /\ c <> Processed /\ si_slot si ∈ V /\ (exists q, q ∈ V /\ parent_of sl0 si q = Some s) /\
   (forall q p, q ∈ V -> parent_of sl0 si q = Some p -> p ∈ V \/ p = s)) ->
  exists V', walk_inv sl0 si c sl' wa' V' /\
    (forall t, on_chain sl0 si c t -> t ∈ V') /\
    (forall t, t ∉ V' -> sl' !! t = sl0 !! t \/
       (sl0 !! t = None /\ c <> Finalized /\ sl' !! t = Some (Status c ∅ (Some (si_parent si))))).
Proof.
  revert sl wa s par V. induction fuel as [|fuel IH]; intros sl wa s par V; [done|]. cbn [slot_walk].
  intros Hw Hinv Hout Hdesc Hcur.
  (* stopping at a slot that is unknown or has the commitment: every slot on the chain was visited *)
  assert ((s ∈ V \/ forall ss, sl0 !! s = Some ss -> ss_commit ss = c) -> forall t, on_chain sl0 si c t -> t ∈ V) as Hstop.
  { intros Hs t Ht. induction Ht as [ss Hss Hc|q p ss Ht IHt Hcp Hp Hss Hc].
    - destruct Hcur as [(-> & -> & _)|(_ & _ & H & _)]; [|done]. destruct Hs as [Hs|Hs]; [done|by apply Hs in Hss].
    - destruct Hcur as [(-> & _)|(_ & _ & _ & _ & Hcl)]; [set_solver|].
      destruct (Hcl _ _ IHt Hp) as [?| ->]; [done|]. destruct Hs as [Hs|Hs]; [done|by apply Hs in Hss]. }
  destruct (sl !! s) as [ss|] eqn:Hs; cycle 1.
  { assert (s ∉ V) as HsV. { intros H. destruct (wi_in _ _ _ _ _ _ Hinv _ H) as (? & _ & _ & ?). congruence. }
    pose proof (Hout _ HsV) as Hs0. rewrite Hs in Hs0. symmetry in Hs0.
    assert (forall t, on_chain sl0 si c t -> t ∈ V) as Hall. { apply Hstop. right. congruence. }
    destruct c; injection Hw as <- <-.
    - exists V. split_and!; [|done|].
      + destruct Hinv as [H1 H2 H3 H4 H5]. constructor; try done. intros t Ht. rewrite lookup_insert_ne by set_solver. auto.
      + intros t Ht. destruct (decide (t = s)) as [->|Hne].
        * right. by rewrite lookup_insert.
        * left. rewrite lookup_insert_ne by done. auto.
    - exists V. split_and!; [|done|].
      + destruct Hinv as [H1 H2 H3 H4 H5]. constructor; try done. intros t Ht. rewrite lookup_insert_ne by set_solver. auto.
      + intros t Ht. destruct (decide (t = s)) as [->|Hne].
        * right. by rewrite lookup_insert.
        * left. rewrite lookup_insert_ne by done. auto.
    - exists V. split_and!; auto. }
  case_bool_decide as Hc.
  { injection Hw as <- <-. exists V. split_and!; [done| |auto]. apply Hstop.
    destruct (decide (s ∈ V)) as [|HsV]; [auto|]. right. rewrite <- (Hout _ HsV), Hs. congruence. }
  assert (s ∉ V) as HsV.
  { intros H. destruct (wi_in _ _ _ _ _ _ Hinv _ H) as (ss0 & _ & _ & H'). rewrite Hs in H'. simplify_eq/=. }
  pose proof (Hout _ HsV) as Hs0. rewrite Hs in Hs0. symmetry in Hs0.
  set (parent := match par with Some _ => par | None => ss_parent ss end) in *.
  assert (on_chain sl0 si c s) as Hch.
  { destruct Hcur as [(_ & -> & _)|(_ & Hcp & _ & (q & Hq & Hqp) & _)]; [by eapply chain_start|].
    eapply chain_up; [by apply (wi_chain _ _ _ _ _ _ Hinv)|done|done|done|done]. }
  assert (par = None -> si_slot si ∈ V) as HparV by (destruct Hcur as [(_ & _ & ->)|(_ & _ & ? & _)]; done).
  assert (parent = parent_of sl0 si s) as Hpar.
  { unfold parent, parent_of. destruct Hcur as [(_ & -> & ->)|(-> & _ & HV & _)]; [by rewrite N.eqb_refl|].
    destruct (N.eqb_spec s (si_slot si)) as [->|]; [done|]. by rewrite Hs0. }
  set (sl1 := <[s := Status c (ss_accounts ss) parent]> sl) in *.
  set (wa1 := wa ∪ gset_to_gmap s (ss_accounts ss)) in *.
  assert (walk_inv sl0 si c sl1 wa1 ({[s]} ∪ V)) as Hinv1.
  { destruct Hinv as [H1 H2 H3 H4 H5].
    assert (forall i t, wa1 !! i = Some t -> wa !! i = Some t \/ (wa !! i = None /\ t = s /\ i ∈ ss_accounts ss)) as Hwa1.
    { intros i t H. unfold wa1 in H. apply lookup_union_Some_raw in H as [H|[Hn H]]; [auto|].
      apply lookup_gset_to_gmap_Some in H as [? <-]. auto. }
    constructor.
    - intros t [->|Ht]%in_add; auto.
    - intros t [->|Ht]%in_add.
      + exists ss. unfold sl1. rewrite lookup_insert, <- Hpar. auto.
      + unfold sl1. rewrite lookup_insert_ne by set_solver. auto.
    - intros i t [H|(_ & -> & H)]%Hwa1.
      + destruct (H3 _ _ H) as [? ?]. split; [set_solver|done].
      + split; [set_solver|]. eauto.
    - intros i t ss0 [->|Ht]%in_add H6 H7; unfold wa1; apply lookup_union_is_Some.
      + right. rewrite Hs0 in H6. injection H6 as <-. exists s. by apply lookup_gset_to_gmap_Some.
      + left. eauto.
    - intros Hd i t t' ss0 Hwi Ht' Hss0 Hin. apply Hwa1 in Hwi as [Hwi|(Hn & -> & Hin')].
      + apply in_add in Ht' as [->|Ht']; [|by eapply H5].
        destruct (H3 _ _ Hwi) as [HtV _]. specialize (Hdesc Hd _ HtV). lia.
      + apply in_add in Ht' as [->|Ht']; [lia|].
        destruct (H4 _ _ _ Ht' Hss0 Hin) as [? ?]. congruence. }
  assert (forall t, t ∉ {[s]} ∪ V -> sl1 !! t = sl0 !! t) as Hout1.
  { intros t Ht. unfold sl1. rewrite lookup_insert_ne by set_solver. apply Hout. set_solver. }
  assert (si_slot si ∈ {[s]} ∪ V) as Hsi by (destruct Hcur as [(_ & -> & _)|(_ & _ & ? & _)]; set_solver).
  (* end of the chain *)
  assert (((parent = None \/ c = Processed) -> Some (sl1, wa1) = Some (sl', wa') ->
    exists V', walk_inv sl0 si c sl' wa' V' /\ (forall t, on_chain sl0 si c t -> t ∈ V') /\
    (forall t, t ∉ V' -> sl' !! t = sl0 !! t \/
       (sl0 !! t = None /\ c <> Finalized /\ sl' !! t = Some (Status c ∅ (Some (si_parent si))))))) as Hend.
  { intros Hor [= <- <-]. exists ({[s]} ∪ V). split_and!; [done| |auto].
    intros t Ht. induction Ht as [ss0 Hss0 Hc0|q p ss0 Ht IHt Hcp Hp Hss0 Hc0]; [done|].
    destruct Hor as [Hn| ->]; [|done]. apply in_add in IHt as [->|HqV]; [congruence|].
    destruct Hcur as [(-> & _)|(_ & _ & _ & _ & Hcl)]; [set_solver|].
    destruct (Hcl _ _ HqV Hp) as [?| ->]; set_solver. }
  assert (forall p, parent = Some p -> c <> Processed -> slot_walk fuel sl1 wa1 p None (si_parent si) c = Some (sl', wa') ->
    exists V', walk_inv sl0 si c sl' wa' V' /\ (forall t, on_chain sl0 si c t -> t ∈ V') /\
    (forall t, t ∉ V' -> sl' !! t = sl0 !! t \/
       (sl0 !! t = None /\ c <> Finalized /\ sl' !! t = Some (Status c ∅ (Some (si_parent si)))))) as Hrec.
  { intros p Hp Hcp Hw1. eapply (IH _ _ _ _ ({[s]} ∪ V)); [exact Hw1|done|done| |].
    - intros Hd. assert (p < s) as Hps. { apply (Hd s p Hch). by rewrite <- Hpar. }
      intros t [->|Ht]%in_add; [done|]. specialize (Hdesc Hd _ Ht). lia.
    - right. split_and!; [done|done|done| |].
      + exists s. split; [set_solver|]. by rewrite <- Hpar.
      + intros q p' [->|Hq]%in_add Hqp.
        * right. congruence.
        * destruct Hcur as [(-> & _)|(_ & _ & _ & _ & Hcl)]; [set_solver|].
          destruct (Hcl _ _ Hq Hqp) as [?| ->]; set_solver. }
  destruct c; [by apply Hend; auto|..]; (destruct parent as [p|] eqn:Hpp; [by eapply Hrec|by apply Hend; auto]).
Qed.

Lemma walk_inv_start sl si c : walk_inv sl si c sl ∅ ∅.
Proof. constructor; intros *; rewrite ?lookup_empty; set_solver. Qed.
(** The outcome of the first phase of slot processing. *)
Lemma slot_phase_spec sl si c sl' wa : slot_phase sl si c = Some (sl', wa) ->
  (forall i t, wa !! i = Some t -> on_chain sl si c t /\ exists ss, sl !! t = Some ss /\ i ∈ ss_accounts ss) /\
  (forall i t ss, on_chain sl si c t -> sl !! t = Some ss -> i ∈ ss_accounts ss -> is_Some (wa !! i)) /\
  (descending sl si c -> forall i t t' ss, wa !! i = Some t -> on_chain sl si c t' ->
     sl !! t' = Some ss -> i ∈ ss_accounts ss -> t' <= t) /\
  (forall t, (c <> Finalized \/ si_slot si <= t) ->
     (on_chain sl si c t /\ exists ss, sl !! t = Some ss /\
         sl' !! t = Some (Status c (ss_accounts ss) (parent_of sl si t))) \/
     (~ on_chain sl si c t /\ (sl' !! t = sl !! t \/
       (sl !! t = None /\ c <> Finalized /\ sl' !! t = Some (Status c ∅ (Some (si_parent si))))))) /\
  (c = Finalized -> forall t, t < si_slot si -> sl' !! t = None).
Proof.
  unfold slot_phase. destruct (slot_walk _ _ _ _ _ _ _) as [[sl1 wa1]|] eqn:Hw; [|done]. intros [= <- <-].
  destruct (slot_walk_spec sl si c _ _ _ _ _ ∅ _ _ Hw (walk_inv_start sl si c)) as (V & [H1 H2 H3 H4 H5] & Hall & Hout).
  { done. }
  { set_solver. }
  { left. done. }
  split_and!.
  - intros i t Ht. destruct (H3 _ _ Ht) as [? ?]. auto.
  - intros i t ss Ht. apply H4. auto.
  - intros Hd i t t' ss Hwi Ht'. apply (H5 Hd); auto.
  - intros t Hct.
    assert (match c with Finalized => prune_slots (si_slot si) sl1 | _ => sl1 end !! t = sl1 !! t) as ->.
    { destruct c; try done. destruct Hct as [?|Hle]; [done|]. unfold prune_slots. apply option_eq. intros x.
      rewrite map_filter_lookup_Some. simpl. naive_solver. }
    destruct (decide (t ∈ V)) as [HtV|HtV].
    + left. split; [auto|]. destruct (H2 _ HtV) as (ss & ? & _ & ?). eauto.
    + right. split; [by intros ?%Hall|]. auto.
  - intros -> t Ht. unfold prune_slots. apply map_filter_lookup_None. right. intros x _. simpl. lia.
Qed.

(** Theorems about the dispatching storage (C52, C53, C63). *)
From Verif Require Import Base DataModel FilterModel FilterProps ByCommitModel StoreModel StoreSpec TokenModel TokenPendModel TokenUtilsModel SplModel TokenStoreModel TokenStoreProps
  TokenUtilsProps DispatchModel DispatchSpec.

Lemma hset_changed {S} (h : heap S) i s : only_changed h i s (hset h i s).
Proof. unfold hset. split; [by rewrite Nat.eqb_refl|]. intros j Hj. by apply Nat.eqb_neq in Hj as ->. Qed.
Lemma lookup_some l p i : NoDup (fst <$> l) -> dp_lookup l p = Some i <-> (p, i) ∈ l.
Proof.
  induction l as [|[q j] l IH]; simpl; intros Hnd; [split; [done|by intros ?%elem_of_nil]|].
  apply NoDup_cons in Hnd as [Hq Hnd]. destruct (N.eqb_spec q p) as [->|Hne].
  - split; [intros [= ->]; left|]. intros [[= ->]|H]%elem_of_cons; [done|]. destruct Hq. apply elem_of_list_fmap. by exists (p, i).
  - rewrite IH by done. rewrite elem_of_cons. split; [by right|]. intros [[= -> ->]|H]; done.
Qed.
Lemma lookup_none l p : dp_lookup l p = None <-> forall j, (p, j) ∉ l.
Proof.
  induction l as [|[q j] l IH]; simpl; [split; [intros _ j ?%elem_of_nil; done|done]|]. destruct (N.eqb_spec q p) as [->|Hne].
  - split; [done|]. intros H. destruct (H j). left.
  - rewrite IH. split; intros H k; [intros [[= -> ->]|Hk]%elem_of_cons; [done|by apply (H k)]|]. intros Hk. apply (H k). by right.
Qed.
Lemma child_responsible D p i : one_child_each D -> responsible D p i <-> i = dp_child D p.
Proof.
  intros Hnd. unfold responsible, dp_child. destruct (dp_lookup (dp_map D) p) as [j|] eqn:Hl; simpl.
  - apply lookup_some in Hl; [|done]. split.
    + intros [Hi|[Hi _]]; [|by destruct (Hi j)]. apply lookup_some in Hi, Hl; try done. rewrite Hi in Hl. by injection Hl.
    + intros ->. by left.
  - rewrite lookup_none in Hl. split; [intros [Hi|[_ ->]]; [by destruct (Hl i)|done]|]. intros ->. by right.
Qed.

(** C53: for every program there is exactly one responsible storage; initialisation of an account goes to the one responsible
    for its owner and changes no other; queries, snapshots and loads of a program are answered by the one responsible for it. *)
Theorem C53_one_child_answers : forall S (I : nat -> iface S) (D : disp) (p : pubkey), one_child_each D ->
  exists i, (forall j, responsible D p j <-> j = i) /\ forall h : heap S,
  (forall a, d_owner a = p -> match dp_init I D h a with
     | Done h' => exists s, i_init (I i) (h i) a = Done s /\ only_changed h i s h'
     | Panic => i_init (I i) (h i) a = Panic end) /\
  (forall fl c, dp_gpa I D h p fl c = i_gpa (I i) (h i) p fl c) /\
  dp_snapshot I D h p = i_snapshot (I i) (h i) p /\
  (forall b, match dp_load I D h p b with
     | Done (h', r) => exists s, i_load (I i) (h i) p b = Done (s, r) /\ only_changed h i s h'
     | Panic => i_load (I i) (h i) p b = Panic end).
Proof.
  intros S I D p Hnd. exists (dp_child D p). split; [intros j; by apply child_responsible|]. intros h. split; [|split; [|split]]; try done.
  - intros a <-. unfold dp_init. destruct (i_init _ _ a) as [s|]; simpl; [|done]. exists s. split; [done|apply hset_changed].
  - intros b. unfold dp_load. destruct (i_load _ _ _ _) as [[s r]|]; simpl; [|done]. exists s. split; [done|apply hset_changed].
Qed.
Print Assumptions C53_one_child_answers.

(** C53: an update is offered to the registered storages in turn until one accepts it; those behind it are not touched; it is
    refused only when all refused it, and when the call returns true exactly one storage has accepted it. *)
Lemma update_loop S (I : nat -> iface S) D l : forall h a c h' b, dp_update_loop I D h l a c = Done (h', b) ->
  exists tried i rest h1 s, (snd <$> l) ++ [dp_default D] = tried ++ i :: rest /\ refused I a c h tried h1 /\
    i_update (I i) (h1 i) a c = Done (s, b) /\ only_changed h1 i s h' /\ (b = false -> rest = []).
Proof.
  induction l as [|[q j] l IH]; simpl; intros h a c h' b H.
  - destruct (i_update _ _ a c) as [[s b']|] eqn:Hu; simpl in H; [|done]. injection H as <- <-.
    exists [], (dp_default D), [], h, s. split_and!; try done; [constructor|apply hset_changed..].
  - destruct (i_update _ (h j) a c) as [[s []]|] eqn:Hu; simpl in H; [| |done].
    + injection H as <- <-. exists [], j, ((snd <$> l) ++ [dp_default D]), h, s. split_and!; try done; [constructor|apply hset_changed..].
    + destruct (IH _ _ _ _ _ H) as (tried & i & rest & h1 & s' & Heq & Hr & Hu' & Hc & Hb).
      exists (j :: tried), i, rest, h1, s'. split_and!; [exact (f_equal (cons j) Heq)|..]; try done; try apply Hc. econstructor; [done|apply hset_changed|done].
Qed.
Theorem C53_update_offered_in_turn : forall S (I : nat -> iface S) (D : disp) h a c h' b, dp_update I D h a c = Done (h', b) ->
  exists tried i rest h1 s, registrations D = tried ++ i :: rest /\ refused I a c h tried h1 /\
    i_update (I i) (h1 i) a c = Done (s, b) /\ only_changed h1 i s h' /\ (b = false -> rest = []).
Proof. intros S I D h a c h' b H. by apply update_loop. Qed.
Print Assumptions C53_update_offered_in_turn.

(** C53: a slot notification reaches every registration, and the report is the concatenation of their reports. *)
Lemma slot_loop S (I : nat -> iface S) D l : forall h out si c h' r, dp_slot_loop I D h out l si c = Done (h', r) ->
  exists ts, notified I si c h ((snd <$> l) ++ [dp_default D]) ts h' /\ r = out ++ concat ts.
Proof.
  induction l as [|[q j] l IH]; simpl; intros h out si c h' r H.
  - destruct (i_slot _ _ si c) as [[s t]|] eqn:Hu; simpl in H; [|done]. injection H as <- <-. exists [t]. simpl. rewrite app_nil_r. split; [|done].
    econstructor; [done|apply hset_changed|constructor].
  - destruct (i_slot _ (h j) si c) as [[s t]|] eqn:Hu; simpl in H; [|done]. destruct (IH _ _ _ _ _ _ H) as (ts & Hn & ->).
    exists (t :: ts). simpl. rewrite app_assoc. split; [|done]. econstructor; [done|apply hset_changed|done].
Qed.
Theorem C53_slots_reach_everyone : forall S (I : nat -> iface S) (D : disp) h si c h' r, dp_slot I D h si c = Done (h', r) ->
  exists ts, notified I si c h (registrations D) ts h' /\ r = concat ts.
Proof. intros S I D h si c h' r H. by apply slot_loop in H. Qed.
Print Assumptions C53_slots_reach_everyone.

(** With no object registered twice, every object is notified once from the state it had, nothing else changes, and ... *)
Lemma notified_each S (I : nat -> iface S) si c h l ts h' : notified I si c h l ts h' -> NoDup l ->
  Forall2 (fun i t => i_slot (I i) (h i) si c = Done (h' i, t)) l ts /\ forall j, j ∉ l -> h' j = h j.
Proof.
  induction 1 as [h|h i s t h1 l ts h' Hi [Hs Ho] Hn IH]; intros Hnd; [by split|]. apply NoDup_cons in Hnd as [Hil Hnd].
  destruct (IH Hnd) as [Hf Hj]. split.
  - constructor; [by rewrite (Hj i Hil), Hs|]. eapply Forall2_impl_in; [|exact Hf] || idtac.
    clear -Hf Ho Hil. induction Hf as [|k u l ts Hk Hf IH]; [constructor|]. apply not_elem_of_cons in Hil as [Hne Hil].
    constructor; [by rewrite <- Ho|by apply IH].
  - intros j Hj'. apply not_elem_of_cons in Hj' as [Hne Hj']. rewrite Hj by done. by apply Ho.
Qed.
Theorem C53_each_notified_once : forall S (I : nat -> iface S) (D : disp) h si c h' r, unshared D -> dp_slot I D h si c = Done (h', r) ->
  (exists ts, Forall2 (fun i t => i_slot (I i) (h i) si c = Done (h' i, t)) (registrations D) ts /\ r = concat ts) /\
  (forall j, j ∉ registrations D -> h' j = h j).
Proof.
  intros S I D h si c h' r Hnd H. apply C53_slots_reach_everyone in H as (ts & Hn & ->). apply notified_each in Hn as [Hf Hj]; [|done].
  split; [by exists ts|done].
Qed.
Print Assumptions C53_each_notified_once.
(** ... the order in which the map is visited does not matter. *)
Lemma slot_done S (I : nat -> iface S) D : forall l h out si c, NoDup ((snd <$> l) ++ [dp_default D]) ->
  (forall i, i ∈ (snd <$> l) ++ [dp_default D] -> i_slot (I i) (h i) si c <> Panic) -> exists h' r, dp_slot_loop I D h out l si c = Done (h', r).
Proof.
  induction l as [|[q j] l IH]; simpl; intros h out si c Hnd Hp.
  - destruct (i_slot (I (dp_default D)) _ si c) as [[s t]|] eqn:Hs; simpl; [by do 2 eexists|]. destruct (Hp (dp_default D)); [left|done].
  - apply NoDup_cons in Hnd as [Hj Hnd]. destruct (i_slot (I j) (h j) si c) as [[s t]|] eqn:Hs; simpl; [|destruct (Hp j); [left|done]].
    apply IH; [done|]. intros i Hi. destruct (hset_changed h j s) as [_ Ho]. rewrite Ho; [apply Hp; by right|]. by intros ->.
Qed.
Lemma forall2_perm_concat {A B} (P : A -> list B -> Prop) l1 l2 t1 t2 : (forall a x y, P a x -> P a y -> x = y) -> l1 ≡ₚ l2 ->
  Forall2 P l1 t1 -> Forall2 P l2 t2 -> concat t1 ≡ₚ concat t2.
Proof.
  intros Hf Hp. revert t1 t2. induction Hp as [|x l1 l2 Hp IH|x y l|l1 l2 l3 Hp1 IH1 Hp2 IH2]; intros t1 t2 H1 H2.
  - inversion H1; subst. inversion H2; subst. done.
  - inversion H1; subst. inversion H2; subst. simpl. f_equiv; [|by apply IH]. by erewrite (Hf _ _ _ H3 H4).
  - inversion H1 as [|? a ? t1' Ha H1' ]; subst. inversion H1' as [|? b ? t1'' Hb H1'']; subst.
    inversion H2 as [|? a' ? t2' Ha' H2' ]; subst. inversion H2' as [|? b' ? t2'' Hb' H2'']; subst. simpl.
    rewrite (Hf _ _ _ Ha Hb'), (Hf _ _ _ Hb Ha'). assert (t1'' = t2'') as ->; [|by rewrite !app_assoc, (Permutation_app_comm b' a')].
    clear -Hf H1'' H2''. revert t2'' H2''. induction H1'' as [|u v l t Hu Ht IH]; intros t2 H2; inversion H2; subst; [done|]. f_equal; [by eapply Hf|by apply IH].
  - assert (exists t, Forall2 P l2 t) as [t Ht].
    { clear -Hp1 H1. revert t1 H1. induction Hp1 as [|x l1 l2 Hp IH|x y l|l1 l2 l3 Hp1 IH1 Hp2 IH2]; intros t1 H1.
      - by exists [].
      - inversion H1; subst. destruct (IH _ H4) as [t Ht]. by eexists (_ :: t); constructor.
      - inversion H1; subst. inversion H4; subst. eexists (_ :: _ :: _). constructor; [done|]. by constructor.
      - destruct (IH1 _ H1) as [t Ht]. by apply IH2 in Ht. }
    rewrite (IH1 _ _ H1 Ht). by apply IH2.
Qed.
Theorem C53_visit_order_irrelevant : forall S (I : nat -> iface S) (D D' : disp) h si c h1 r1,
  unshared D -> dp_map D' ≡ₚ dp_map D -> dp_default D' = dp_default D -> dp_slot I D h si c = Done (h1, r1) ->
  exists h2 r2, dp_slot I D' h si c = Done (h2, r2) /\ r2 ≡ₚ r1 /\ forall i, h2 i = h1 i.
Proof.
  intros S I D D' h si c h1 r1 Hnd Hp Hd H. assert (registrations D' ≡ₚ registrations D) as Hr by (unfold registrations; by rewrite Hp, Hd).
  assert (unshared D') as Hnd' by (unfold unshared; by rewrite Hr).
  destruct (C53_each_notified_once _ _ _ _ _ _ _ _ Hnd H) as [(ts & Hf & ->) Ho].
  destruct (slot_done S I D' (dp_map D') h [] si c Hnd') as (h2 & r2 & H2).
  { intros i Hi. change (i ∈ registrations D') in Hi. rewrite Hr in Hi. apply elem_of_list_lookup in Hi as [k Hk].
    destruct (Forall2_lookup_l _ _ _ _ _ Hf Hk) as (t & _ & Ht). by rewrite Ht. }
  exists h2, r2. split; [done|]. destruct (C53_each_notified_once _ _ _ _ _ _ _ _ Hnd' H2) as [(ts' & Hf' & ->) Ho'].
  assert (forall i, h2 i = h1 i) as Heq.
  { intros i. destruct (decide (i ∈ registrations D)) as [Hi|Hi]; [|by rewrite Ho, Ho' by (by rewrite ?Hr)].
    pose proof Hi as Hi'. rewrite <- Hr in Hi'. apply elem_of_list_lookup in Hi as [k Hk], Hi' as [k' Hk'].
    destruct (Forall2_lookup_l _ _ _ _ _ Hf Hk) as (t & _ & Ht), (Forall2_lookup_l _ _ _ _ _ Hf' Hk') as (t' & _ & Ht').
    rewrite Ht in Ht'. by injection Ht'. }
  split; [|done]. apply (forall2_perm_concat (fun i t => exists s, i_slot (I i) (h i) si c = Done (s, t)) (registrations D') (registrations D)); [|done|..].
  - intros i x y [s Hs] [s' Hs']. rewrite Hs in Hs'. by injection Hs'.
  - eapply Forall2_impl; [exact Hf'|]. intros i t Ht. exists (h2 i). exact Ht.
  - eapply Forall2_impl; [exact Hf|]. intros i t Ht. exists (h1 i). exact Ht.
Qed.
Print Assumptions C53_visit_order_irrelevant.

(** ** Reads *)
(** C52, what holds: when every storage that does not hold the account answers with an error, a read through the dispatcher
    returns what some storage that holds it answers.  Neither storage of the repository does so. *)
Theorem C52_reads_find_partial : forall S (I : nat -> iface S) (D : disp) (h : heap S) pk c i a,
  i ∈ registrations D -> i_get (I i) (h i) pk c = Done (ROk (Some a)) ->
  (forall j, j ∈ registrations D -> (exists b, i_get (I j) (h j) pk c = Done (ROk (Some b))) \/ (exists e, i_get (I j) (h j) pk c = Done (RErr e))) ->
  exists j b, j ∈ registrations D /\ i_get (I j) (h j) pk c = Done (ROk (Some b)) /\ dp_get I D h pk c = Done (ROk (Some b)).
Proof.
  intros S I D h pk c i a. unfold dp_get, registrations. induction (dp_map D) as [|[q k] l IH]; simpl; intros Hi Ha Hh.
  - apply elem_of_list_singleton in Hi as ->. exists (dp_default D), a. split; [left|done].
  - destruct (Hh k) as [[b Hb]|[e He]]; [left|..].
    + exists k, b. rewrite Hb. simpl. split; [left|done].
    + rewrite He. simpl. apply elem_of_cons in Hi as [->|Hi]; [congruence|]. destruct IH as (j & b & Hj & Hb & Hg); try done.
      { intros j Hj. apply Hh. by right. }
      exists j, b. split; [by right|done].
Qed.
Print Assumptions C52_reads_find_partial.
(** A read never invents an account. *)
Theorem C52_reads_are_stored : forall S (I : nat -> iface S) (D : disp) (h : heap S) pk c a, dp_get I D h pk c = Done (ROk (Some a)) ->
  exists i, i ∈ registrations D /\ i_get (I i) (h i) pk c = Done (ROk (Some a)).
Proof.
  intros S I D h pk c a. unfold dp_get, registrations. induction (dp_map D) as [|[q k] l IH]; simpl; intros H; [exists (dp_default D); split; [left|done]|].
  destruct (i_get (I k) (h k) pk c) as [[o|e]|] eqn:Hg; simpl in H; [| |done].
  - exists k. split; [left|]. by rewrite Hg, H.
  - destruct (IH H) as (i & Hi & Ha). exists i. split; [by right|done].
Qed.
Print Assumptions C52_reads_are_stored.
(** The storages of the repository never answer a read with an error, ... *)
Lemma child_get_ok E X F ord s pk c r : i_get (child_iface E X F ord) s pk c = Done r -> exists o, r = ROk o.
Proof.
  destruct s as [st|ts]; simpl.
  - unfold get_account. destruct (st_index st !! pk) as [i|]; [|intros [= <-]; eauto]. destruct (st_accounts st !! i) as [b|]; simpl; [|done].
    destruct (bc_get b c) as [a|]; [destruct (0 <? d_lamports a)|]; intros [= <-]; eauto.
  - unfold ts_get. destruct c.
    1,2: destruct (pd_get _ _ _ _) as [l|]; simpl; [|done]; destruct (unwrap (head l)) as [[[[a w] s]|]|]; simpl; try done;
      [destruct (tpa_to_acct _ _ _ _)|destruct (get_fin ts pk)]; simpl; try done; intros [= <-]; eauto.
    destruct (get_fin ts pk); simpl; [|done]. intros [= <-]. eauto.
Qed.
(** ... so that only the first storage visited is ever read: the default, in particular, is unreadable. *)
Theorem C52_only_first_child_read : forall E X ord (F : nat -> filt) (D : disp) (h : heap child) p i l pk c,
  dp_map D = (p, i) :: l ->
  dp_get (fun k => child_iface E X (F k) ord) D h pk c = i_get (child_iface E X (F i) ord) (h i) pk c.
Proof.
  intros E X ord F D h p i l pk c Hm. unfold dp_get. rewrite Hm. cbn [dp_get_loop].
  destruct (i_get _ _ _ _) as [r|] eqn:Hg; [|done]. cbn [mbind res_bind]. by destruct (child_get_ok _ _ _ _ _ _ _ _ Hg) as [o ->].
Qed.
Print Assumptions C52_only_first_child_read.

(** ** Examples and findings with the storages of the repository *)
(** A token store for the token program, an in-memory store that admits everything for the rest. *)
Definition d_tok : disp := Disp [(spl_token_id, 0%nat)] 1.
Definition h_new : heap child := fun i => match i with O => CTok ts_empty | _ => CMem store_empty end.
Definition Ireal : nat -> iface child := fun _ => child_iface E0 X0 admit_all ord0.
Definition heap_of {A} (r : res (heap child * A)) : heap child := match r with Done (h, _) => h | Panic => h_new end.
Definition sys (pk : pubkey) (owner slot wv : N) : acct := dlv pk 1000 owner [] slot wv.
Definition says (r : res (heap child * bool)) : bool := match r with Done (_, b) => b | Panic => false end.

Example C53_example_hyps : one_child_each d_tok /\ unshared d_tok /\ says (dp_update Ireal d_tok h_new (sys 9 7 5 1) Processed) = true /\
  exists h' r, dp_slot Ireal d_tok (heap_of (dp_update Ireal d_tok h_new (sys 9 7 5 1) Processed)) (SlotInfo 5 4 0) Finalized = Done (h', r) /\ length r = 1%nat.
Proof.
  split; [apply (bool_decide_unpack _); by vm_compute|]. split; [apply (bool_decide_unpack _); by vm_compute|]. split; [by vm_compute|].
  do 2 eexists. split; [vm_compute; reflexivity|done].
Qed.
(** An account accepted by the default is not returned by a read through the dispatcher, although the default returns it. *)
Theorem C52_refuted : exists D h a h' b, dp_update Ireal D h a Finalized = Done (h', true) /\
  dp_get Ireal D h' (d_pubkey a) Finalized = Done (ROk None) /\
  dp_default D ∈ registrations D /\ i_get (Ireal (dp_default D)) (h' (dp_default D)) (d_pubkey a) Finalized = Done (ROk (Some b)).
Proof.
  exists d_tok, h_new, (sys 9 7 5 1), (heap_of (dp_update Ireal d_tok h_new (sys 9 7 5 1) Finalized)), (sys 9 7 5 1).
  split; [vm_compute; reflexivity|]. split; [by vm_compute|]. split; [set_solver|by vm_compute].
Qed.
Print Assumptions C52_refuted.
(** The contract of [C52_reads_find_partial] is met by storages that answer [AccountNotFound] for what they do not hold. *)
Definition Inotfound : nat -> iface child := fun k =>
  let J := Ireal k in
  Iface (i_update J) (i_init J) (fun s pk c => r ← i_get J s pk c; Done (match r with ROk None => RErr AccountNotFound | _ => r end))
    (i_gpa J) (i_slot J) (i_snapshot J) (i_load J).
Example C52_example_hyps : let h := heap_of (dp_update Inotfound d_tok h_new (sys 9 7 5 1) Finalized) in
  1%nat ∈ registrations d_tok /\ i_get (Inotfound 1%nat) (h 1%nat) 9 Finalized = Done (ROk (Some (sys 9 7 5 1))) /\
  (forall j, j ∈ registrations d_tok -> (exists b, i_get (Inotfound j) (h j) 9 Finalized = Done (ROk (Some b))) \/
     (exists e, i_get (Inotfound j) (h j) 9 Finalized = Done (RErr e))) /\
  dp_get Inotfound d_tok h 9 Finalized = Done (ROk (Some (sys 9 7 5 1))).
Proof.
  intros h. split; [set_solver|]. split; [by vm_compute|]. split; [|by vm_compute].
  intros j [->|[->|?%elem_of_nil]%elem_of_cons]%elem_of_cons; [right|left|done]; eexists; vm_compute; reflexivity.
Qed.
(** A token store registered for both token programs is notified twice for one slot, and the accounts of a confirmed slot
    are reported twice. *)
Definition d_both : disp := Disp [(spl_token_id, 0%nat); (spl_2022_id, 0%nat)] 1.
Definition h_slot7 : heap child := fun i => match i with
  | O => CTok (TokenStoreProps.final [TInit (mintd 1001 50 1 1); TUpdate (tokd 77 1001 1002 5 7 1) Processed]) | _ => CMem store_empty end.
Theorem C53_shared_child_reports_twice_finding : exists D h si h' x, one_child_each D /\ dp_slot Ireal D h si Confirmed = Done (h', [x; x]).
Proof.
  exists d_both, h_slot7, (SlotInfo 7 6 0). do 2 eexists. split; [|vm_compute; reflexivity].
  apply (bool_decide_unpack _); by vm_compute.
Qed.
Print Assumptions C53_shared_child_reports_twice_finding.

(** C63: accounts that change owner.  An account handed from another program to the token program is still returned by a
    query of its former program, in its former state, although the newest version was accepted. *)
Theorem C63_moved_in_refuted : exists D h a1 a2 h1 h2, d_pubkey a1 = d_pubkey a2 /\ d_slot a1 < d_slot a2 /\ d_owner a1 <> d_owner a2 /\
  dp_update Ireal D h a1 Finalized = Done (h1, true) /\ dp_update Ireal D h1 a2 Finalized = Done (h2, true) /\
  dp_gpa Ireal D h2 (d_owner a1) None Finalized = Done (ROk [a1]).
Proof.
  exists d_tok, h_new, (sys 9 7 5 1), (mintd 9 50 6 2),
    (heap_of (dp_update Ireal d_tok h_new (sys 9 7 5 1) Finalized)),
    (heap_of (dp_update Ireal d_tok (heap_of (dp_update Ireal d_tok h_new (sys 9 7 5 1) Finalized)) (mintd 9 50 6 2) Finalized)).
  split; [done|]. split; [by vm_compute|]. split; [by vm_compute|]. split; [vm_compute; reflexivity|]. split; [vm_compute; reflexivity|]. by vm_compute.
Qed.
Print Assumptions C63_moved_in_refuted.
(** An account handed from the token program to another program is taken as closed by the token store, which accepts it:
    the default, which is responsible for the new owner, never sees it, and nobody returns it. *)
Definition moved_out : acct := sys 77 7 6 3.
Definition h_tok : heap child := fun i => match i with
  | O => CTok (TokenStoreProps.final [TInit (mintd 1001 50 1 1); TInit (tokd 77 1001 1002 5 5 2)]) | _ => CMem store_empty end.
Theorem C63_moved_out_refuted : exists D h a h', one_child_each D /\ unshared D /\
  responsible D (d_owner a) (dp_default D) /\ 0 < d_lamports a /\ dp_update Ireal D h a Finalized = Done (h', true) /\
  dp_gpa Ireal D h' (d_owner a) None Finalized = Done (ROk []) /\ dp_get Ireal D h' (d_pubkey a) Finalized = Done (ROk None) /\
  (forall i, i ∈ registrations D -> i_get (Ireal i) (h' i) (d_pubkey a) Finalized = Done (ROk None)).
Proof.
  exists d_tok, h_tok, moved_out, (heap_of (dp_update Ireal d_tok h_tok moved_out Finalized)).
  split; [apply (bool_decide_unpack _); by vm_compute|]. split; [apply (bool_decide_unpack _); by vm_compute|].
  split; [right; split; [intros j [[= H]|?%elem_of_nil]%elem_of_cons; done|done]|]. split; [by vm_compute|]. split; [vm_compute; reflexivity|].
  split; [by vm_compute|]. split; [by vm_compute|].
  intros j [->|[->|?%elem_of_nil]%elem_of_cons]%elem_of_cons; [by vm_compute|by vm_compute|done].
Qed.
Print Assumptions C63_moved_out_refuted.
(** What holds: initialisations (which are routed by owner) of accounts of one program make its queries answer exactly like the
    responsible storage on its own. *)
Fixpoint init_all {S} (f : S -> acct -> res S) (s : S) (l : list acct) : res S :=
  match l with [] => Done s | a :: l' => s' ← f s a; init_all f s' l' end.
Theorem C63_initialised_accounts_partial : forall S (I : nat -> iface S) (D : disp) (p : pubkey) (i : nat) (l : list acct) (h h' : heap S) fl c,
  one_child_each D -> responsible D p i -> (forall a, a ∈ l -> responsible D (d_owner a) i -> d_owner a = p) ->
  init_all (dp_init I D) h l = Done h' ->
  exists s, init_all (i_init (I i)) (h i) (filter (fun a => d_owner a = p) l) = Done s /\ dp_gpa I D h' p fl c = i_gpa (I i) s p fl c.
Proof.
  intros S I D p i l h h' fl c Hnd Hr Hl. revert h. induction l as [|a l IH]; intros h H.
  - simpl in H. injection H as <-. exists (h i). split; [done|]. apply child_responsible in Hr; [|done]. by rewrite Hr.
  - simpl in H. destruct (dp_init I D h a) as [h1|] eqn:Hi; [|done]. simpl in H. unfold dp_init in Hi.
    destruct (IH (fun b Hb => Hl b (elem_of_list_further _ _ _ Hb)) h1 H) as (s & Hs & Hg).
    destruct (i_init (I (dp_child D (d_owner a))) (h (dp_child D (d_owner a))) a) as [s1|] eqn:Hs1; [|done]. simpl in Hi. injection Hi as <-.
    rewrite filter_cons. case_decide as Ho.
    + subst p. apply child_responsible in Hr; [|done]. subst i. exists s. simpl. rewrite Hs1. simpl.
      destruct (hset_changed h (dp_child D (d_owner a)) s1) as [He _]. by rewrite He in Hs.
    + exists s. split; [|done]. destruct (hset_changed h (dp_child D (d_owner a)) s1) as [_ Hne]. rewrite Hne in Hs; [done|].
      intros ->. apply Ho, Hl; [left|]. by apply child_responsible.
Qed.
Print Assumptions C63_initialised_accounts_partial.
Example C63_example_hyps : let l := [mintd 1001 50 1 1; sys 9 7 5 1; tokd 77 1001 1002 5 5 2] in
  responsible d_tok spl_token_id 0 /\ (forall a, a ∈ l -> responsible d_tok (d_owner a) 0 -> d_owner a = spl_token_id) /\
  exists h', init_all (dp_init Ireal d_tok) h_new l = Done h'.
Proof.
  intros l. split; [left; left|]. split; [|eexists; vm_compute; reflexivity].
  intros a Ha [[[= H]|?%elem_of_nil]%elem_of_cons|[_ ?]]; done.
Qed.

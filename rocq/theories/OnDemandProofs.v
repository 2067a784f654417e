(** Invariants of on-demand loading. *)
From Verif Require Import Base DataModel FilterModel FilterSpec FilterProofs StoreModel DispatchModel OnDemandModel OnDemandSpec.

Lemma log_ne {A} (l : list A) (x : A) : l <> l ++ [x].
Proof. intros H. apply (f_equal length) in H. rewrite app_length in H. simpl in H. lia. Qed.
Lemma log_neq {A} (l : list A) (x y : A) : x <> y -> l ++ [x] <> l ++ [y].
Proof. intros Hn H. by apply app_inj_tail in H as [_ ?]. Qed.

Section inv.
Context {S : Type} (E : ext) (I : option fstore -> iface S).
Implicit Types (o : od S) (x : sys S) (t : thr).

Lemma od_run_app x l1 l2 : od_run E I x (l1 ++ l2) = match od_run E I x l1 with Some y => od_run E I y l2 | None => None end.
Proof. revert x. induction l1 as [|e l1 IH]; intros x; simpl; [done|]. destruct (od_step E I x e); [apply IH|done]. Qed.
Lemma od_ind (P : sys S -> Prop) x l x' : P x -> (forall y e y', P y -> od_step E I y e = Some y' -> P y') -> od_run E I x l = Some x' -> P x'.
Proof.
  intros H0 Hs. revert x H0. induction l as [|e l IH]; intros x H0 H; simpl in H; [by injection H as <-|].
  destruct (od_step E I x e) as [y|] eqn:Hy; [|done]. eapply IH; [|done]. by eapply Hs.
Qed.

(** Effect of one step of a call on the loading maps. *)
Inductive acc_eff o t o' t' : Prop :=
| ae_same : od_acc o' = od_acc o -> (forall pk, loads_acc t' pk -> loads_acc t pk) ->
    (forall pk ok, od_log o' <> od_log o ++ [NAcc pk ok]) -> acc_eff o t o' t'
| ae_sub pk ok c : t = ALock pk c -> t' = (if ok : bool then ASave pk c else ADone (RErr ErrorSubscribingAccount)) -> pk ∉ od_acc o ->
    od_acc o' = od_acc o ∪ {[pk]} -> od_log o' = od_log o ++ [NAcc pk ok] -> acc_eff o t o' t'
| ae_clear pk c : t = AClear pk c -> t' = ARead pk c -> od_acc o' = od_acc o ∖ {[pk]} -> od_log o' = od_log o -> acc_eff o t o' t'.
Lemma loads_none t pk : (forall c, t <> ASave pk c) -> (forall c, t <> AClear pk c) -> ~ loads_acc t pk.
Proof. intros H1 H2 [c [-> | ->]]; [by eapply H1|by eapply H2]. Qed.
End inv.
Ltac no_load := let c := fresh in intros ? [c [?|?]]; simplify_eq.

Section inv2.
Context {S : Type} (E : ext) (I : option fstore -> iface S).
Implicit Types (o : od S) (x : sys S) (t : thr).

Lemma adv_acc o t i o' t' : adv E I o t i = Some (o', t') -> acc_eff o t o' t'.
Proof.
  intros H. destruct t; simpl in H.
  all: try (destruct i as [|ok|a|[]]; simpl in H; try done).
  all: unfold a_read, p_read, save_one in H; repeat case_match; simplify_eq/=.
  all: try (apply ae_same; [done|by no_load|intros; first [apply log_ne|apply log_neq; congruence]]).
  all: try (by eapply ae_clear).
  all: try (apply ae_same; [done|no_load; eexists; eauto|intros; first [apply log_ne|apply log_neq; congruence]]).
  - by eapply (ae_sub _ _ _ _ pk true c); [..|done|done]; [done|done|case_bool_decide].
  - by eapply (ae_sub _ _ _ _ pk false c); [..|done|done]; [done|done|case_bool_decide].
Qed.
Definition ainv x : Prop := (forall n t pk, x.2 !! n = Some t -> loads_acc t pk -> pk ∈ od_acc x.1) /\
  (forall n m t u pk, x.2 !! n = Some t -> x.2 !! m = Some u -> loads_acc t pk -> loads_acc u pk -> n = m).
(** Cases of an event: a new call, a step, or no change of the calls. *)
Lemma step_cases x e x' : od_step E I x e = Some x' ->
  (exists t, x' = (x.1, x.2 ++ [t]) /\ ((exists pk c, t = AStart pk c) \/ exists p fl c, e = EGpa p fl c /\ t = PStart p fl c)) \/
  (exists n i t o' t', e = EAdv n i /\ x.2 !! n = Some t /\ adv E I x.1 t i = Some (o', t') /\ x' = (o', <[n := t']> x.2)) \/
  (exists s, x' = (set_st x.1 s, x.2)) \/
  (exists f fs, e = EFilter f /\ od_filters x.1 = Some fs /\
     ((exists fs', add_filter E fs f = Done fs' /\ x' = (add_log (set_filters x.1 (Some fs')) (NOther f), x.2)) \/ (add_filter E fs f = Panic /\ x' = (set_filters x.1 None, x.2)))).
Proof.
  destruct x as [o ts], e as [pk c|p fl c|n i|s|f]; simpl; intros H.
  - injection H as <-. left. eexists. split; [done|]. eauto.
  - injection H as <-. left. eexists. split; [done|]. eauto 10.
  - right; left. destruct (ts !! n) as [t|] eqn:Ht; [|done]. destruct (adv E I o t i) as [[o' t']|] eqn:Ha; [|done]. injection H as <-.
    by exists n, i, t, o', t'.
  - injection H as <-. right; right; left. eauto.
  - right; right; right. destruct (od_filters o) as [fs|] eqn:Hf; [|done]. exists f, fs. split; [done|]. split; [done|].
    destruct (add_filter E fs f) as [fs'|] eqn:Ha; injection H as <-; [left|by right]. by exists fs'.
Qed.
Lemma lookup_new ts (u : thr) n t : (ts ++ [u]) !! n = Some t -> ts !! n = Some t \/ (n = length ts /\ t = u).
Proof.
  intros H. apply lookup_app_Some in H as [H|[Hn H]]; [by left|]. right. destruct (n - length ts)%nat as [|k] eqn:Hk; simpl in H; [|done].
  injection H as ->. split; [lia|done].
Qed.
Lemma step_ainv x e x' : ainv x -> od_step E I x e = Some x' -> ainv x'.
Proof.
  intros [Hin Hu] H. destruct (step_cases _ _ _ H) as [(t & -> & Ht)|[(n & i & t & o' & t' & -> & Hn & Ha & ->)|[[s ->]|(f & fs & _ & _ & [(fs' & _ & ->)|[_ ->]])]]]; try done.
  - assert (forall pk, ~ loads_acc t pk) as Hno by (destruct Ht as [(pk & c & ->)|(p & fl & c & _ & ->)]; no_load). split; simpl.
    + intros n u pk [Hl|[-> ->]]%lookup_new Hp; [by eapply Hin|by destruct (Hno pk)].
    + intros n m u v pk [Hl|[-> ->]]%lookup_new [Hl'|[-> ->]]%lookup_new Hp Hp'; try (by destruct (Hno pk)). by eapply Hu.
  - apply adv_acc in Ha. assert (n < length x.2)%nat as Hlt by (by eapply lookup_lt_Some).
    assert (forall m u, <[n := t']> x.2 !! m = Some u -> (m = n /\ u = t') \/ (m <> n /\ x.2 !! m = Some u)) as Hcs.
    { intros m u Hm. destruct (decide (m = n)) as [->|Hne]; [|right; by rewrite list_lookup_insert_ne in Hm].
      rewrite list_lookup_insert in Hm by done. injection Hm as ->. by left. }
    destruct Ha as [Hs Hl _|pk ok c -> -> Hni Hs _|pk c -> -> Hs _]; split; simpl.
    + intros m u pk [[-> ->]|[_ Hm]]%Hcs Hp; rewrite Hs; [eapply Hin; [done|by apply Hl]|by eapply Hin].
    + intros m k u v pk [[-> ->]|[_ Hm]]%Hcs [[-> ->]|[_ Hk]]%Hcs Hp Hp'; [done|..]; eapply Hu; eauto.
    + intros m u q [[-> ->]|[_ Hm]]%Hcs Hp; rewrite Hs; apply elem_of_union.
      * right. destruct ok; destruct Hp as [c' [?|?]]; simplify_eq. by apply elem_of_singleton.
      * left. by eapply Hin.
    + assert (forall m u, x.2 !! m = Some u -> ~ loads_acc u pk) as Hno by (intros m u Hm Hp; by apply Hni, (Hin m u)).
      assert (forall q, loads_acc (if ok then ASave pk c else ADone (RErr ErrorSubscribingAccount)) q -> q = pk) as Hq.
      { intros q [c' [?|?]]; destruct ok; by simplify_eq. }
      intros m k u v q [[-> ->]|[_ Hm]]%Hcs [[-> ->]|[_ Hk]]%Hcs Hp Hp'; [done|..|by eapply Hu].
      * apply Hq in Hp as ->. by destruct (Hno k v Hk).
      * apply Hq in Hp' as ->. by destruct (Hno m u Hm).
    + intros m u q [[-> ->]|[Hne Hm]]%Hcs Hp; [by destruct Hp as [? [?|?]]|]. rewrite Hs. apply elem_of_difference. split; [by eapply Hin|].
      intros ->%elem_of_singleton. apply Hne. eapply Hu; [exact Hm|exact Hn|done|]. eexists. by right.
    + intros m k u v q [[-> ->]|[_ Hm]]%Hcs [[-> ->]|[_ Hk]]%Hcs Hp Hp'; [done|..|by eapply Hu]; by repeat (match goal with H : loads_acc _ _ |- _ => destruct H as [? [?|?]]; simplify_eq end).
Qed.
End inv2.

Inductive prog_eff {S} (o : od S) (t : thr) (o' : od S) (t' : thr) : Prop :=
| pe_same : od_gpa o' = od_gpa o -> (forall p cs, loads_prog t' p cs -> loads_prog t p cs) ->
    (forall p fl ok, od_log o' <> od_log o ++ [NProg p fl ok]) -> prog_eff o t o' t'
| pe_sub p fl ok c : t = PLock p fl c -> t' = (if ok : bool then PAdd p fl c else PDone (RErr ErrorSubscribingAccount)) -> gpa_key p fl ∉ od_gpa o ->
    od_gpa o' = gpa_key p fl :: od_gpa o -> od_log o' = od_log o ++ [NProg p fl ok] -> prog_eff o t o' t'
| pe_clear p fl c : t = PClear p fl c -> t' = PRead p fl c -> od_gpa o' = filter (fun k => k <> gpa_key p fl) (od_gpa o) -> od_log o' = od_log o ->
    prog_eff o t o' t'.
Ltac no_loadp := let f := fresh in let c := fresh in let H := fresh in intros ? ? (f & c & H & [?|[?|?]]); simplify_eq.

Section inv3.
Context {S : Type} (E : ext) (I : option fstore -> iface S).
Implicit Types (o : od S) (x : sys S) (t : thr).
Lemma adv_prog o t i o' t' : adv E I o t i = Some (o', t') -> prog_eff o t o' t'.
Proof.
  intros H. destruct t; simpl in H.
  all: try (destruct i as [|ok|a|[]]; simpl in H; try done).
  all: unfold a_read, p_read, save_one in H; repeat case_match; simplify_eq/=.
  all: try (apply pe_same; [done|by no_loadp|intros; first [apply log_ne|apply log_neq; congruence]]).
  all: try (by eapply pe_clear).
  all: try (apply pe_same; [done|no_loadp; do 2 eexists; eauto|intros; first [apply log_ne|apply log_neq; congruence]]).
  - by eapply (pe_sub _ _ _ _ p fl true c); [..|done|done]; [done|done|case_bool_decide].
  - by eapply (pe_sub _ _ _ _ p fl false c); [..|done|done]; [done|done|case_bool_decide].
Qed.
Definition pinv x : Prop := (forall n t p cs, x.2 !! n = Some t -> loads_prog t p cs -> (p, cs) ∈ od_gpa x.1) /\
  (forall n m t u p cs, x.2 !! n = Some t -> x.2 !! m = Some u -> loads_prog t p cs -> loads_prog u p cs -> n = m).
Lemma insert_cases (ts : list thr) n t t' m u : ts !! n = Some t -> <[n := t']> ts !! m = Some u -> (m = n /\ u = t') \/ (m <> n /\ ts !! m = Some u).
Proof.
  intros Hn Hm. destruct (decide (m = n)) as [->|Hne]; [|right; by rewrite list_lookup_insert_ne in Hm].
  rewrite list_lookup_insert in Hm by (by eapply lookup_lt_Some). injection Hm as ->. by left.
Qed.
Lemma step_pinv x e x' : pinv x -> od_step E I x e = Some x' -> pinv x'.
Proof.
  intros [Hin Hu] H. destruct (step_cases _ _ _ _ _ H) as [(t & -> & Ht)|[(n & i & t & o' & t' & -> & Hn & Ha & ->)|[[s ->]|(f & fs & _ & _ & [(fs' & _ & ->)|[_ ->]])]]]; try done.
  - assert (forall p cs, ~ loads_prog t p cs) as Hno by (destruct Ht as [(pk & c & ->)|(p & fl & c & _ & ->)]; no_loadp). split; simpl.
    + intros n u p cs [Hl|[-> ->]]%lookup_new Hp; [by eapply Hin|by destruct (Hno p cs)].
    + intros n m u v p cs [Hl|[-> ->]]%lookup_new [Hl'|[-> ->]]%lookup_new Hp Hp'; try (by destruct (Hno p cs)). by eapply Hu.
  - apply adv_prog in Ha. pose proof (fun m u => insert_cases x.2 n t t' m u Hn) as Hcs.
    destruct Ha as [Hs Hl _|p fl ok c -> -> Hni Hs _|p fl c -> -> Hs _]; split; simpl.
    + intros m u p cs [[-> ->]|[_ Hm]]%Hcs Hp; rewrite Hs; [eapply Hin; [done|by apply Hl]|by eapply Hin].
    + intros m k u v p cs [[-> ->]|[_ Hm]]%Hcs [[-> ->]|[_ Hk]]%Hcs Hp Hp'; [done|..]; eapply Hu; eauto.
    + intros m u q cs [[-> ->]|[_ Hm]]%Hcs Hp; rewrite Hs; apply elem_of_cons.
      * left. destruct ok; destruct Hp as (f' & c' & <- & [?|[?|?]]); by simplify_eq.
      * right. by eapply Hin.
    + assert (forall m u, x.2 !! m = Some u -> ~ loads_prog u p (default [] fl)) as Hno by (intros m u Hm Hp; by apply Hni, (Hin m u)).
      assert (forall q cs, loads_prog (if ok then PAdd p fl c else PDone (RErr ErrorSubscribingAccount)) q cs -> q = p /\ cs = default [] fl) as Hq.
      { intros q cs (f' & c' & <- & [?|[?|?]]); destruct ok; by simplify_eq. }
      intros m k u v q cs [[-> ->]|[_ Hm]]%Hcs [[-> ->]|[_ Hk]]%Hcs Hp Hp'; [done|..|by eapply Hu].
      * apply Hq in Hp as [-> ->]. by destruct (Hno k v Hk).
      * apply Hq in Hp' as [-> ->]. by destruct (Hno m u Hm).
    + intros m u q cs [[-> ->]|[Hne Hm]]%Hcs Hp; [by destruct Hp as (? & ? & ? & [?|[?|?]])|]. rewrite Hs. apply elem_of_list_filter. split; [|by eapply Hin].
      intros [= -> ->]. apply Hne. eapply Hu; [exact Hm|exact Hn|done|]. do 2 eexists. eauto.
    + intros m k u v q cs [[-> ->]|[_ Hm]]%Hcs [[-> ->]|[_ Hk]]%Hcs Hp Hp'; [done|..|by eapply Hu];
        by repeat (match goal with H : loads_prog _ _ _ |- _ => destruct H as (? & ? & ? & [?|[?|?]]); simplify_eq end).
Qed.

(** Reachable states satisfy the invariants. *)
Lemma leads_ainv s f l x : leads E I s f l x -> ainv x.
Proof. apply od_ind; [|intros; by eapply step_ainv]. split; simpl; intros n; by rewrite lookup_nil. Qed.
Lemma leads_pinv s f l x : leads E I s f l x -> pinv x.
Proof. apply od_ind; [|intros; by eapply step_pinv]. split; simpl; intros n; by rewrite lookup_nil. Qed.

(** The log only grows. *)
Lemma step_log x e x' : od_step E I x e = Some x' -> od_log x'.1 = od_log x.1 \/ exists m, od_log x'.1 = od_log x.1 ++ [m].
Proof.
  intros H. destruct (step_cases _ _ _ _ _ H) as [(t & -> & Ht)|[(n & i & t & o' & t' & -> & Hn & Ha & ->)|[[s ->]|(f & fs & _ & _ & [(fs' & _ & ->)|[_ ->]])]]];
    simpl; eauto.
  destruct t; simpl in Ha.
  all: try (destruct i as [|ok|a|[]]; simpl in Ha; try done).
  all: unfold a_read, p_read, save_one in Ha; repeat case_match; simplify_eq/=; eauto.
Qed.
(** An account whose load is stuck: marked as loading, and nobody loads it. *)
Definition stuck_acc x pk : Prop := pk ∈ od_acc x.1 /\ forall n t, x.2 !! n = Some t -> ~ loads_acc t pk.
Lemma step_stuck_acc x e x' pk : stuck_acc x pk -> od_step E I x e = Some x' -> stuck_acc x' pk /\ (forall ok, od_log x'.1 <> od_log x.1 ++ [NAcc pk ok]).
Proof.
  intros [Hin Hno] H. destruct (step_cases _ _ _ _ _ H) as [(t & -> & Ht)|[(n & i & t & o' & t' & -> & Hn & Ha & ->)|[[s ->]|(f & fs & _ & _ & [(fs' & _ & ->)|[_ ->]])]]];
    try (split; [done|intros; simpl; first [apply log_ne|apply log_neq; congruence]]).
  - split; [|intros; apply log_ne]. split; [done|]. simpl. intros n u [Hl|[-> ->]]%lookup_new; [by eapply Hno|].
    destruct Ht as [(q & c & ->)|(p & fl & c & _ & ->)]; intros [? [?|?]]; simplify_eq.
  - apply adv_acc in Ha. pose proof (fun m u => insert_cases x.2 n t t' m u Hn) as Hcs.
    destruct Ha as [Hs Hl Hlog|q ok c -> -> Hni Hs Hlog|q c -> -> Hs Hlog]; (split; [split|]); simpl; rewrite ?Hs.
    + done.
    + intros m u [[-> ->]|[_ Hm]]%Hcs; [intros Hp%Hl; by eapply Hno|by eapply Hno].
    + intros ok. apply Hlog.
    + by apply elem_of_union_l.
    + intros m u [[-> ->]|[_ Hm]]%Hcs; [|by eapply Hno]. intros [c' [?|?]]; destruct ok; simplify_eq; by apply Hni.
    + intros ok' Hl. rewrite Hlog in Hl. apply app_inj_tail in Hl as [_ [= <- _]]. done.
    + apply elem_of_difference. split; [done|]. intros ->%elem_of_singleton. apply (Hno n _ Hn). eexists. by right.
    + intros m u [[-> ->]|[_ Hm]]%Hcs; [|by eapply Hno]. intros [c' [?|?]]; simplify_eq.
    + intros ok. rewrite Hlog. apply log_ne.
Qed.
Definition stuck_prog x p cs : Prop := (p, cs) ∈ od_gpa x.1 /\ forall n t, x.2 !! n = Some t -> ~ loads_prog t p cs.
Lemma step_stuck_prog x e x' p cs : stuck_prog x p cs -> od_step E I x e = Some x' ->
  stuck_prog x' p cs /\ (forall fl ok, default [] fl = cs -> od_log x'.1 <> od_log x.1 ++ [NProg p fl ok]).
Proof.
  intros [Hin Hno] H. destruct (step_cases _ _ _ _ _ H) as [(t & -> & Ht)|[(n & i & t & o' & t' & -> & Hn & Ha & ->)|[[s ->]|(f & fs & _ & _ & [(fs' & _ & ->)|[_ ->]])]]];
    try (split; [done|intros; simpl; first [apply log_ne|apply log_neq; congruence]]).
  - split; [|intros; apply log_ne]. split; [done|]. simpl. intros n u [Hl|[-> ->]]%lookup_new; [by eapply Hno|].
    destruct Ht as [(q & c & ->)|(q & fl & c & _ & ->)]; intros (? & ? & ? & [?|[?|?]]); simplify_eq.
  - apply adv_prog in Ha. pose proof (fun m u => insert_cases x.2 n t t' m u Hn) as Hcs.
    destruct Ha as [Hs Hl Hlog|q fl ok c -> -> Hni Hs Hlog|q fl c -> -> Hs Hlog]; (split; [split|]); simpl; rewrite ?Hs.
    + done.
    + intros m u [[-> ->]|[_ Hm]]%Hcs; [intros Hp%Hl; by eapply Hno|by eapply Hno].
    + intros fl ok _. apply Hlog.
    + by right.
    + intros m u [[-> ->]|[_ Hm]]%Hcs; [|by eapply Hno]. intros (fl' & c' & Hd & [?|[?|?]]); destruct ok; simplify_eq. by apply Hni.
    + intros fl' ok' Hd Hl. rewrite Hlog in Hl. apply app_inj_tail in Hl as [_ Heq]. simplify_eq. by apply Hni.
    + apply elem_of_list_filter. split; [|done]. intros [= -> ->]. apply (Hno n _ Hn). do 2 eexists. eauto.
    + intros m u [[-> ->]|[_ Hm]]%Hcs; [|by eapply Hno]. intros (fl' & c' & Hd & [?|[?|?]]); simplify_eq.
    + intros fl' ok' _. rewrite Hlog. apply log_ne.
Qed.
Lemma run_log (Q : note -> Prop) (P : sys S -> Prop) l : forall x x',
  (forall y e y', P y -> od_step E I y e = Some y' -> P y' /\ (forall m, od_log y'.1 = od_log y.1 ++ [m] -> Q m)) ->
  P x -> od_run E I x l = Some x' -> P x' /\ exists more, od_log x'.1 = od_log x.1 ++ more /\ Forall Q more.
Proof.
  induction l as [|e l IH]; intros x x' Hs Hp H; simpl in H.
  - injection H as <-. split; [done|]. exists []. by rewrite app_nil_r.
  - destruct (od_step E I x e) as [y|] eqn:Hy; [|done]. destruct (Hs _ _ _ Hp Hy) as [Hpy Hq].
    destruct (IH y x' Hs Hpy H) as [Hx' (more & Hl & Hm)]. split; [done|]. destruct (step_log _ _ _ Hy) as [He|[m He]].
    + exists more. by rewrite Hl, He.
    + exists (m :: more). rewrite Hl, He, <- app_assoc. split; [done|]. constructor; [by apply Hq|done].
Qed.
End inv3.

Section inv4.
Context {S : Type} (E : ext) (I : option fstore -> iface S).
Implicit Types (o : od S) (x : sys S) (t : thr).
Lemma add_filters_app f l1 l2 : add_filters E f (l1 ++ l2) = (f' ← add_filters E f l1; add_filters E f' l2).
Proof. revert f. induction l1 as [|g l1 IH]; intros f; simpl; [done|]. destruct (add_filter E f g); simpl; [apply IH|done]. Qed.
Lemma add_filters_snoc f l f' g f'' : add_filters E f l = Done f' -> add_filter E f' g = Done f'' -> add_filters E f (l ++ [g]) = Done f''.
Proof. intros H1 H2. rewrite add_filters_app, H1. simpl. by rewrite H2. Qed.
Lemma added_contained f fs f' g : add_filters E f fs = Done f' -> g ∈ fs -> raw_filter g -> contains_filter f' g = true.
Proof.
  intros H (l1 & l2 & ->)%elem_of_list_split Hr. rewrite add_filters_app in H. destruct (add_filters E f l1) as [f1|]; [|done]. simpl in H.
  destruct (add_filter E f1 g) as [f2|] eqn:H2; [|done]. simpl in H. eapply contains_filter_mono; [exact H|]. by eapply contains_self_raw.
Qed.

(** How a step of a call changes filters and log. *)
Inductive fl_eff o t o' t' : Prop :=
| fe_same : od_filters o' = od_filters o -> (forall g, NSaved g ∈ od_log o' <-> NSaved g ∈ od_log o) -> (forall g, NOther g ∈ od_log o' <-> NOther g ∈ od_log o) ->
    (forall p fl c, t' = PSave p fl c -> exists c', t = PSave p fl c') -> (forall p fl c, t' = PClear p fl c -> t = PClear p fl c) ->
    (forall p fl c, t' = PRead p fl c -> t = PRead p fl c \/ t = PClear p fl c) -> fl_eff o t o' t'
| fe_poison : od_filters o' = None -> fl_eff o t o' t'
| fe_add p fl c f f' : t = PAdd p fl c -> t' = PSave p fl c -> od_filters o = Some f -> add_filter E f (prog_filter p fl) = Done f' -> od_filters o' = Some f' ->
    od_log o' = od_log o -> fl_eff o t o' t'
| fe_saved p fl c : t = PSave p fl c -> t' = PClear p fl c -> od_filters o' = od_filters o -> od_log o' = od_log o ++ [NSaved (prog_filter p fl)] -> fl_eff o t o' t'
| fe_saved_acc pk c : t = ASave pk c -> t' = AClear pk c -> od_filters o' = od_filters o -> od_log o' = od_log o ++ [NSaved (acc_filter pk)] -> fl_eff o t o' t'.
Lemma adv_filters o t i o' t' : adv E I o t i = Some (o', t') -> fl_eff o t o' t'.
Proof.
  intros H. destruct t; simpl in H.
  all: try (destruct i as [|ok|a|[]]; simpl in H; try done).
  all: unfold a_read, p_read, save_one in H; repeat case_match; simplify_eq/=.
  all: try (by apply fe_poison).
  all: try (by eapply fe_saved). all: try (by eapply fe_saved_acc). all: try (by eapply fe_add).
  all: apply fe_same; simpl; [done| | |intros; simplify_eq; eauto|intros; simplify_eq; eauto|intros; simplify_eq; eauto].
  all: try done.
  all: intros g; rewrite elem_of_app, elem_of_list_singleton; split; [intros [?|?]; [done|congruence]|by left].
Qed.

(** The filters are the initial ones and the ones added; each added one was saved, or comes from outside, or is being loaded,
    or its load is stuck. *)
Definition settled x (g : afilter) : Prop := NSaved g ∈ od_log x.1 \/ NOther g ∈ od_log x.1.
Definition pending x (g : afilter) : Prop := exists p fl, g = prog_filter p fl /\ gpa_key p fl ∈ od_gpa x.1 /\
  forall n t, x.2 !! n = Some t -> loads_prog t p (default [] fl) -> exists c, t = PSave p fl c.
Definition finv f0 x : Prop := forall f, od_filters x.1 = Some f -> exists fs, add_filters E f0 fs = Done f /\
  (forall g, g ∈ fs -> settled x g \/ pending x g) /\
  (forall p fl, NSaved (prog_filter p fl) ∈ od_log x.1 -> prog_filter p fl ∈ fs) /\
  (forall n p fl c, x.2 !! n = Some (PSave p fl c) \/ x.2 !! n = Some (PClear p fl c) -> prog_filter p fl ∈ fs).
Definition linv x : Prop := forall n p fl c, x.2 !! n = Some (PClear p fl c) \/ x.2 !! n = Some (PRead p fl c) -> NSaved (prog_filter p fl) ∈ od_log x.1.

Lemma log_more x e x' m : od_step E I x e = Some x' -> m ∈ od_log x.1 -> m ∈ od_log x'.1.
Proof. intros [He|[k He]]%step_log Hm; rewrite He; [done|]. apply elem_of_app. by left. Qed.

Lemma adv_clear o t i o' p fl c : adv E I o t i = Some (o', PClear p fl c) -> t = PSave p fl c /\ od_log o' = od_log o ++ [NSaved (prog_filter p fl)].
Proof.
  intros H. destruct t; simpl in H.
  all: try (destruct i as [|ok|a|[]]; simpl in H; try done).
  all: unfold a_read, p_read, save_one in H; repeat case_match; by simplify_eq/=.
Qed.
Lemma adv_read o t i o' p fl c : adv E I o t i = Some (o', PRead p fl c) -> t = PClear p fl c.
Proof.
  intros H. destruct t; simpl in H.
  all: try (destruct i as [|ok|a|[]]; simpl in H; try done).
  all: unfold a_read, p_read, save_one in H; repeat case_match; by simplify_eq/=.
Qed.
Lemma step_linv x e x' : linv x -> od_step E I x e = Some x' -> linv x'.
Proof.
  intros Hl H n p fl c Hn. destruct (step_cases _ _ _ _ _ H) as [(t & -> & Ht)|[(k & i & t & o' & t' & -> & Hk & Ha & ->)|[[s ->]|(f & fs & _ & _ & [(fs' & _ & ->)|[_ ->]])]]].
  - apply (Hl n p fl c). simpl in Hn. destruct Hn as [[Hn|[_ <-]]%lookup_new|[Hn|[_ <-]]%lookup_new]; [by left| |by right|];
      destruct Ht as [(? & ? & ?)|(? & ? & ? & _ & ?)]; done.
  - simpl in Hn. assert (forall u, u = PClear p fl c \/ u = PRead p fl c -> <[k:=t']> x.2 !! n = Some u -> NSaved (prog_filter p fl) ∈ od_log o') as Hx.
    { intros u Hu [[-> Hut]|[_ Hm]]%(insert_cases _ _ _ _ _ _ Hk).
      - subst u. assert (forall g, g = PClear p fl c \/ g = PRead p fl c -> t = g -> NSaved (prog_filter p fl) ∈ od_log x.1) as Hold.
        { intros g Hg ->. apply (Hl k p fl c). destruct Hg as [-> | ->]; [by left|by right]. }
        destruct Hu as [-> | ->].
        + destruct (adv_clear _ _ _ _ _ _ _ Ha) as [-> ->]. apply elem_of_app. right. by left.
        + apply adv_read in Ha as Ht. subst t. apply (log_more _ _ _ _ H). by eapply Hold; [left|].
      - apply (log_more _ _ _ _ H). apply (Hl n p fl c). destruct Hu as [-> | ->]; [by left|by right]. }
    destruct Hn as [Hn|Hn]; [exact (Hx _ (or_introl eq_refl) Hn)|exact (Hx _ (or_intror eq_refl) Hn)].
  - by apply (Hl n p fl c).
  - simpl. apply elem_of_app. left. by apply (Hl n p fl c).
  - by apply (Hl n p fl c).
Qed.

Lemma settled_more x e x' g : od_step E I x e = Some x' -> settled x g -> settled x' g.
Proof. intros H [Hg|Hg]; [left|right]; by eapply log_more. Qed.
Lemma step_finv f0 x e x' : pinv x -> linv x -> finv f0 x -> od_step E I x e = Some x' -> finv f0 x'.
Proof.
  intros Hp Hli Hf H f Hof. pose proof (step_pinv _ _ _ _ _ Hp H) as Hp'. destruct Hp as [Hin Hu], Hp' as [Hin' Hu'].
  destruct (step_cases _ _ _ _ _ H) as [(t & -> & Ht)|[(n & i & t & o' & t' & -> & Hn & Ha & ->)|[[s ->]|(g & fs & _ & Hfs & [(fs' & Hadd & ->)|[_ ->]])]]].
  - destruct (Hf f Hof) as (fs & Hfs & Hst & Hsv & Hth). exists fs. split; [done|]. split; [|split; [done|]].
    + intros g Hg. destruct (Hst g Hg) as [Hs|(p & fl & -> & Hk & Hall)]; [by left|]. right. exists p, fl. split; [done|]. split; [done|]. simpl.
      intros n u [Hl|[-> ->]]%lookup_new Hlp; [by eapply Hall|]. destruct Ht as [(? & ? & ->)|(? & ? & ? & _ & ->)]; destruct Hlp as (? & ? & ? & [?|[?|?]]); done.
    + simpl. intros n p fl c [[Hl|[_ <-]]%lookup_new|[Hl|[_ <-]]%lookup_new]; try (by eapply Hth; eauto); by destruct Ht as [(? & ? & ?)|(? & ? & ? & _ & ?)].
  - simpl in *. pose proof (fun m u => insert_cases x.2 n t t' m u Hn) as Hcs.
    assert (forall g, settled x g -> settled (o', <[n:=t']> x.2) g) as Hsm by (intros g; by apply (settled_more _ _ _ _ H)).
    apply adv_prog in Ha as Hpe. apply adv_filters in Ha as Hfe.
    destruct Hfe as [Hsf Hlog Hlogo Hs1 Hs2 Hs3|Hno|p fl c f1 f' -> -> Hf1 Hadd Hf' Hlog|p fl c -> -> Hsf Hlog|pk c -> -> Hsf Hlog].
    + rewrite Hsf in Hof. destruct (Hf f Hof) as (fs & Hfs & Hst & Hsv & Hth). exists fs. split; [done|]. split; [|split].
      * intros g Hg. destruct (Hst g Hg) as [Hs|(p & fl & -> & Hk & Hall)]; [left; by apply Hsm|].
        destruct Hpe as [Hg1 Hl1 _|q gl ok c -> -> Hni Hg1 _|q gl c -> -> Hg1 _].
        -- right. exists p, fl. split; [done|]. simpl. rewrite Hg1. split; [done|]. intros m u [[-> ->]|[_ Hm]]%Hcs Hlp; [|by eapply Hall].
           apply Hl1 in Hlp as Hlt. destruct (Hall n t Hn Hlt) as [c ->]. destruct Hlp as (fl' & c' & Hd & [?|[?|?]]); subst t'.
           ++ assert (exists c'', PSave p fl c = PAdd p fl' c'') as [? ?]; [|done]. exfalso. clear -Ha. simpl in Ha.
              destruct i as [|ok|a|[]]; simpl in Ha; try done. unfold save_one in Ha. repeat case_match; simplify_eq.
           ++ destruct (Hs1 p fl' c' eq_refl) as [c'' [= <- <-]]. by eexists.
           ++ by apply Hs2 in H0 || by specialize (Hs2 _ _ _ eq_refl).
        -- right. exists p, fl. split; [done|]. simpl. rewrite Hg1. split; [by right|]. intros m u [[-> ->]|[_ Hm]]%Hcs Hlp; [|by eapply Hall].
           exfalso. destruct ok; destruct Hlp as (fl' & c' & Hd & [?|[?|?]]); simplify_eq. apply Hni. unfold gpa_key in *. by rewrite Hd.
        -- destruct (decide (gpa_key p fl = gpa_key q gl)) as [Hkk|Hkk].
           ++ injection Hkk as -> Hd. destruct (Hall n _ Hn) as [? ?]; [|done]. exists gl, c. split; [done|]. eauto.
           ++ right. exists p, fl. split; [done|]. simpl. rewrite Hg1. split; [by apply elem_of_list_filter|].
              intros m u [[-> ->]|[_ Hm]]%Hcs Hlp; [|by eapply Hall]. by destruct Hlp as (? & ? & ? & [?|[?|?]]).
      * intros p fl Hs. by apply Hsv, Hlog.
      * intros m p fl c [Hm|Hm]; apply Hcs in Hm as [[-> Hm]|[_ Hm]].
        -- destruct (Hs1 p fl c (eq_sym Hm)) as [c' ->]. eapply Hth. left. exact Hn.
        -- eapply Hth; eauto.
        -- specialize (Hs2 p fl c (eq_sym Hm)) as ->. eapply Hth. right. exact Hn.
        -- eapply Hth; eauto.
    + by rewrite Hno in Hof.
    + rewrite Hf' in Hof. injection Hof as <-. destruct (Hf f1 Hf1) as (fs & Hfs & Hst & Hsv & Hth). exists (fs ++ [prog_filter p fl]).
      split; [by eapply add_filters_snoc|]. assert (loads_prog (PAdd p fl c) p (default [] fl)) as Hld by (exists fl, c; eauto).
      split; [|split].
      * destruct Hpe as [Hg1 _ _|? ? ? ? ?|? ? ? ?]; [|done..]. intros g [Hg| ->%elem_of_list_singleton]%elem_of_app.
        -- destruct (Hst g Hg) as [Hs|(q & gl & -> & Hk & Hall)]; [left; by apply Hsm|]. right. exists q, gl. split; [done|]. simpl. rewrite Hg1. split; [done|].
           intros m u [[-> ->]|[_ Hm]]%Hcs Hlp; [|by eapply Hall]. destruct Hlp as (fl' & c' & Hd & [?|[?|?]]); simplify_eq.
           destruct (Hall n _ Hn) as [? ?]; [|done]. exists fl', c'. rewrite <- Hd. eauto.
        -- right. exists p, fl. split; [done|]. simpl. rewrite Hg1. split; [by eapply Hin|]. intros m u [[-> ->]|[Hne Hm]]%Hcs Hlp; [by eexists|].
           destruct Hne. by eapply Hu.
      * intros q gl Hs. rewrite Hlog in Hs. apply elem_of_app. left. by apply Hsv.
      * intros m q gl c' [Hm|Hm]; apply Hcs in Hm as [[-> Hm]|[_ Hm]]; apply elem_of_app; simplify_eq; [right; by left|left; eapply Hth; eauto..].
    + rewrite Hsf in Hof. destruct (Hf f Hof) as (fs & Hfs & Hst & Hsv & Hth). exists fs. split; [done|].
      assert (prog_filter p fl ∈ fs) as Hpin by (eapply Hth; left; exact Hn).
      destruct Hpe as [Hg1 Hl1 _|? ? ? ? ?|? ? ? ?]; [|done..]. split; [|split].
      * intros g Hg. destruct (decide (g = prog_filter p fl)) as [->|Hne].
        { left. left. simpl. rewrite Hlog. apply elem_of_app. right. by left. }
        destruct (Hst g Hg) as [Hs|(q & gl & -> & Hk & Hall)]; [left; by apply Hsm|]. right. exists q, gl. split; [done|]. simpl. rewrite Hg1. split; [done|].
        intros m u [[-> ->]|[_ Hm]]%Hcs Hlp; [|by eapply Hall]. apply Hl1 in Hlp. destruct (Hall n _ Hn Hlp) as [c' Heq]. by simplify_eq.
      * intros q gl Hs. rewrite Hlog in Hs. apply elem_of_app in Hs as [Hs|Hs%elem_of_list_singleton]; [by apply Hsv|]. by simplify_eq.
      * intros m q gl c' [Hm|Hm]; apply Hcs in Hm as [[-> Hm]|[_ Hm]]; simplify_eq; try done; eapply Hth; eauto.
    + rewrite Hsf in Hof. destruct (Hf f Hof) as (fs & Hfs & Hst & Hsv & Hth). exists fs. split; [done|].
      destruct Hpe as [Hg1 Hl1 _|? ? ? ? ?|? ? ? ?]; [|done..]. split; [|split].
      * intros g Hg. destruct (Hst g Hg) as [Hs|(q & gl & -> & Hk & Hall)]; [left; by apply Hsm|]. right. exists q, gl. split; [done|]. simpl. rewrite Hg1. split; [done|].
        intros m u [[-> ->]|[_ Hm]]%Hcs Hlp; [|by eapply Hall]. by destruct Hlp as (? & ? & ? & [?|[?|?]]).
      * intros q gl Hs. rewrite Hlog in Hs. apply elem_of_app in Hs as [Hs|Hs%elem_of_list_singleton]; [by apply Hsv|]. by simplify_eq.
      * intros m q gl c' [Hm|Hm]; apply Hcs in Hm as [[-> Hm]|[_ Hm]]; simplify_eq; eapply Hth; eauto.
  - destruct (Hf f Hof) as (fs & Hfs & Hrest). by exists fs.
  - simpl in Hof. injection Hof as <-. destruct (Hf fs Hfs) as (l & Hl & Hst & Hsv & Hth). exists (l ++ [g]). split; [by eapply add_filters_snoc|]. split; [|split].
    + intros k [Hk| ->%elem_of_list_singleton]%elem_of_app; [|left; right; simpl; apply elem_of_app; right; by left].
      destruct (Hst k Hk) as [Hs|Hs]; [left; by eapply settled_more|by right].
    + intros p fl Hs. simpl in Hs. apply elem_of_app in Hs as [Hs|Hs%elem_of_list_singleton]; [|done]. apply elem_of_app. left. by apply Hsv.
    + intros n p fl c Hn. apply elem_of_app. left. by eapply Hth.
  - done.
Qed.
Lemma leads_inv s f0 l x : leads E I s f0 l x -> linv x /\ finv f0 x.
Proof.
  intros H. assert (pinv x /\ linv x /\ finv f0 x) as (_ & ? & ?); [|done]. revert H. apply (od_ind E I (fun x => pinv x /\ linv x /\ finv f0 x)).
  - split; [|split].
    + split; simpl; intros n; by rewrite lookup_nil.
    + intros n p fl c. simpl. rewrite lookup_nil. by intros [?|?].
    + intros f [= <-]. exists []. split; [done|]. split; [by intros g ?%elem_of_nil|]. split; [by intros p fl ?%elem_of_nil|].
      intros n p fl c. simpl. rewrite lookup_nil. by intros [?|?].
  - intros y e y' (Hp & Hl & Hf) Hy. split_and!; [by eapply step_pinv|by eapply step_linv|by eapply step_finv].
Qed.

(** Well-formed patterns never poison the filter store. *)
Lemma add_filter_done f g : decodable E g -> exists f', add_filter E f g = Done f'.
Proof.
  intros Hd. unfold add_filter. destruct (f_program g) as [p|]; [|by eexists]. destruct (fs_programs f !! p) as [[|fl]|]; [by eexists|destruct (f_filters g); by eexists|].
  destruct (f_filters g) as [new|] eqn:Hg; [|by eexists]. destruct (normalize_list E new) as (n & -> & _); [by apply Hd|]. simpl. by eexists.
Qed.
Definition asks t (g : afilter) : Prop := exists p fl c, g = prog_filter p fl /\
  (t = PStart p fl c \/ t = PQuery p fl c \/ t = PLock p fl c \/ t = PWait p fl c \/ t = PAdd p fl c \/ t = PSave p fl c \/ t = PClear p fl c \/ t = PRead p fl c).
Definition clean x : Prop := is_Some (od_filters x.1) /\ forall n t g, x.2 !! n = Some t -> asks t g -> decodable E g.
Lemma adv_asks o t i o' t' g : adv E I o t i = Some (o', t') -> asks t' g -> asks t g.
Proof.
  intros H (p & fl & c & -> & Ht'). exists p, fl, c. split; [done|]. destruct t; simpl in H.
  all: try (destruct i as [|ok|a|[]]; simpl in H; try done).
  all: unfold a_read, p_read, save_one in H; repeat case_match; simplify_eq/=.
  all: by destruct_or!; simplify_eq; eauto 10.
Qed.
Lemma step_clean x e x' : clean x -> ev_decodable E e -> od_step E I x e = Some x' -> clean x'.
Proof.
  intros [[f Hf] Hc] He H. destruct (step_cases _ _ _ _ _ H) as [(t & -> & Ht)|[(n & i & t & o' & t' & -> & Hn & Ha & ->)|[[s ->]|(g & fs & -> & Hfs & [(fs' & Hadd & ->)|[Hadd ->]])]]].
  - split; [by exists f|]. simpl. intros n u g [Hl|[-> ->]]%lookup_new Hu; [by eapply Hc|].
    destruct Hu as (p & fl & c & -> & Hu). destruct Ht as [(? & ? & ->)|(p' & fl' & c' & -> & ->)]; destruct_or!; simplify_eq. done.
  - split.
    + simpl. destruct t; simpl in Ha.
      all: try (destruct i as [|ok|a|[]]; simpl in Ha; try done).
      all: unfold a_read, p_read, save_one in Ha; repeat case_match; simplify_eq/=; try (by eexists); try (by rewrite ?Hf; eexists).
      all: match goal with H : add_filter E ?g ?h = Panic |- _ => destruct (add_filter_done g h) as [f' Hf']; [|congruence] end.
      all: eapply Hc; [exact Hn|]; do 3 eexists; split; [done|]; eauto 10.
    + simpl. intros m u g [[-> ->]|[_ Hm]]%(insert_cases _ _ _ _ _ _ Hn) Hu; [|by eapply Hc]. eapply Hc; [exact Hn|]. by eapply adv_asks.
  - by split.
  - split; [by eexists|done].
  - destruct (add_filter_done fs g He) as [? ?]. congruence.
Qed.
(** Every filter in the log is well-formed. *)
Definition log_dec x : Prop := forall g, settled x g -> decodable E g.
Lemma adv_log o t i o' t' : adv E I o t i = Some (o', t') -> forall g, NSaved g ∈ od_log o' \/ NOther g ∈ od_log o' ->
  (NSaved g ∈ od_log o \/ NOther g ∈ od_log o) \/ asks t g \/ exists pk, g = acc_filter pk.
Proof.
  intros H g. destruct t; simpl in H.
  all: try (destruct i as [|ok|a|[]]; simpl in H; try done).
  all: unfold a_read, p_read, save_one in H; repeat case_match; simplify_eq/=; try (by left).
  all: rewrite !elem_of_app, !elem_of_list_singleton; intros [[?|?]|[?|?]]; simplify_eq; eauto.
  all: right; left; do 3 eexists; split; [done|]; eauto 10.
Qed.
Lemma step_log_dec x e x' : clean x -> log_dec x -> ev_decodable E e -> od_step E I x e = Some x' -> log_dec x'.
Proof.
  intros [_ Hc] Hd He H. destruct (step_cases _ _ _ _ _ H) as [(t & -> & Ht)|[(n & i & t & o' & t' & -> & Hn & Ha & ->)|[[s ->]|(g & fs & -> & Hfs & [(fs' & Hadd & ->)|[Hadd ->]])]]]; try done.
  - intros g Hg. destruct (adv_log _ _ _ _ _ Ha g Hg) as [Hs|[Hs|[pk ->]]]; [by apply Hd|by eapply Hc|]. done.
  - intros k [Hk|Hk]; simpl in Hk; apply elem_of_app in Hk as [Hk|Hk%elem_of_list_singleton]; simplify_eq; [by apply Hd; left|by apply Hd; right|done].
Qed.
Lemma leads_clean s f0 l x : leads E I s f0 l x -> Forall (ev_decodable E) l -> clean x /\ log_dec x.
Proof.
  unfold leads. assert (clean (od_new s f0) /\ log_dec (od_new s f0)) as H0.
  { split; [split; [by eexists|]; simpl; intros n; by rewrite lookup_nil|]. intros g [?%elem_of_nil|?%elem_of_nil]; done. }
  revert H0. generalize (od_new (S := S) s f0). induction l as [|e l IH]; intros y [H1 H2] H Hl; simpl in H; [by injection H as <-|].
  apply Forall_cons in Hl as [He Hl]. destruct (od_step E I y e) as [y'|] eqn:Hy; [|done]. apply (IH y'); [|done|done].
  split; [by eapply step_clean|by eapply step_log_dec].
Qed.
End inv4.

(** ** Whatever is marked as loading has been subscribed; accounts come into the filters from outside only *)
Section ninv.
Context {S : Type} (E : ext) (I : option fstore -> iface S).
Implicit Types (o : od S) (x : sys S) (t : thr).
Lemma add_filter_accounts f g f' pk : add_filter E f g = Done f' -> pk ∈ fs_accounts f' <-> pk ∈ fs_accounts f \/ pk ∈ f_accounts g.
Proof.
  unfold add_filter. intros H. assert (fs_accounts f' = fs_accounts f ∪ list_to_set (f_accounts g)) as ->; [|by rewrite elem_of_union, elem_of_list_to_set].
  destruct (f_program g) as [p|]; [|by injection H as <-]. repeat (case_match; simplify_eq/=); try done.
  all: try (destruct (map_r _ _); simplify_eq/=; done).
Qed.
Lemma add_filters_accounts fs f f' pk : add_filters E f fs = Done f' -> pk ∈ fs_accounts f' <-> pk ∈ fs_accounts f \/ exists g, g ∈ fs /\ pk ∈ f_accounts g.
Proof.
  revert f. induction fs as [|g fs IH]; intros f H; simpl in H.
  - injection H as <-. split; [auto|]. intros [?|(g & Hg & _)]; [done|by apply elem_of_nil in Hg].
  - destruct (add_filter E f g) as [f1|] eqn:H1; [|done]. simpl in H. rewrite (IH _ H), (add_filter_accounts _ _ _ _ H1). split.
    + intros [[?|?]|(k & Hk & ?)]; [by left|right; exists g; split; [left|done]|right; exists k; split; [by right|done]].
    + intros [?|(k & Hk & ?)]; [by left; left|]. apply elem_of_cons in Hk as [->|Hk]; [by left; right|right; eauto].
Qed.
Definition ninv (f0 : fstore) x : Prop :=
  (forall pk, pk ∈ od_acc x.1 -> exists ok, NAcc pk ok ∈ od_log x.1) /\
  (forall k, k ∈ od_gpa x.1 -> exists fl ok, default [] fl = k.2 /\ NProg k.1 fl ok ∈ od_log x.1) /\
  (forall f pk, od_filters x.1 = Some f -> pk ∈ fs_accounts f -> pk ∈ fs_accounts f0 \/ exists g, NOther g ∈ od_log x.1 /\ pk ∈ f_accounts g).
Lemma step_ninv f0 x e x' : ninv f0 x -> od_step E I x e = Some x' -> ninv f0 x'.
Proof.
  intros (H1 & H2 & H3) H.
  destruct (step_cases _ _ _ _ _ H) as [(t & -> & Ht)|[(n & i & t & o' & t' & -> & Hn & Ha & ->)|[[s ->]|(f & fs & _ & Hfs & [(fs' & Hadd & ->)|[_ ->]])]]]; try done.
  - assert (forall m, m ∈ od_log x.1 -> m ∈ od_log o') as Hmore by (intros m Hm; exact (log_more E I _ _ _ m H Hm)).
    split; [|split]; simpl.
    + intros pk Hx. pose proof (adv_acc _ _ _ _ _ _ _ Ha) as [Hs _ _|q ok c _ _ _ Hs Hl|q c _ _ Hs _]; rewrite Hs in Hx.
      * destruct (H1 _ Hx) as [ok ?]. eauto.
      * apply elem_of_union in Hx as [Hx| ->%elem_of_singleton]; [destruct (H1 _ Hx) as [ok' ?]; by eauto|]. exists ok. rewrite Hl. apply elem_of_app. right. left.
      * apply elem_of_difference in Hx as [Hx _]. destruct (H1 _ Hx) as [ok ?]. eauto.
    + intros k Hx. pose proof (adv_prog _ _ _ _ _ _ _ Ha) as [Hs _ _|p fl ok c _ _ _ Hs Hl|p fl c _ _ Hs _]; rewrite Hs in Hx.
      * destruct (H2 _ Hx) as (fl & ok & ? & ?). eauto.
      * apply elem_of_cons in Hx as [->|Hx]; [|destruct (H2 _ Hx) as (fl' & ok' & ? & ?); by eauto]. exists fl, ok. split; [done|]. rewrite Hl. apply elem_of_app. right. left.
      * apply elem_of_list_filter in Hx as [_ Hx]. destruct (H2 _ Hx) as (fl' & ok' & ? & ?). eauto.
    + intros f pk Hf Hx. assert (forall f1, od_filters x.1 = Some f1 -> pk ∈ fs_accounts f1 -> pk ∈ fs_accounts f0 \/ exists g, NOther g ∈ od_log o' /\ pk ∈ f_accounts g) as H3'.
      { intros f1 Hf1 Hx1. destruct (H3 _ _ Hf1 Hx1) as [?|(g & Hg & ?)]; eauto. }
      pose proof (adv_filters _ _ _ _ _ _ _ Ha) as [Hs _ _ _ _ _|Hs|p fl c f1 f2 _ _ Hf1 Hadd Hf2 _|p fl c _ _ Hs _|q c _ _ Hs _];
        try (rewrite Hs in Hf; by eapply H3').
      rewrite Hf2 in Hf. injection Hf as ->. apply (add_filter_accounts _ _ _ _ Hadd) in Hx as [Hx|Hx]; [by eapply H3'|by apply elem_of_nil in Hx].
  - split; [|split]; simpl.
    + intros pk Hx. destruct (H1 _ Hx) as [ok ?]. exists ok. apply elem_of_app; by left.
    + intros k Hx. destruct (H2 _ Hx) as (fl & ok & ? & ?). exists fl, ok. split; [done|]. apply elem_of_app; by left.
    + intros f1 pk [= <-] Hx. apply (add_filter_accounts _ _ _ _ Hadd) in Hx as [Hx|Hx].
      * destruct (H3 _ _ Hfs Hx) as [?|(g & Hg & ?)]; [by left|right]. exists g. split; [apply elem_of_app; by left|done].
      * right. exists f. split; [apply elem_of_app; right; left|done].
Qed.
Lemma leads_ninv s f0 l x : leads E I s f0 l x -> ninv f0 x.
Proof.
  apply od_ind; [|intros; by eapply step_ninv]. split; [|split]; simpl; [set_solver|set_solver|]. intros f pk [= <-]. by left.
Qed.

(** A program query stays marked as loading only while some call loads it, or because a call failed or died. *)
Definition ginv x : Prop := forall k, k ∈ od_gpa x.1 -> exists m t, x.2 !! m = Some t /\ (loads_prog t k.1 k.2 \/ t = TDead \/ exists e, t = PDone (RErr e)).
Lemma adv_final o t i o' t' : adv E I o t i = Some (o', t') -> t <> TDead /\ forall r, t <> PDone r.
Proof. intros H. by destruct t, i. Qed.
Lemma adv_loads o t i o' t' p cs : adv E I o t i = Some (o', t') -> loads_prog t p cs ->
  loads_prog t' p cs \/ t' = TDead \/ (exists e, t' = PDone (RErr e)) \/ (p, cs) ∉ od_gpa o'.
Proof.
  intros H (fl & c & Hfl & Ht). destruct_or!; subst t; destruct i as [|ok|a|[]]; simpl in H; try done;
    unfold save_one in H; repeat case_match; simplify_eq/=; eauto; try (left; do 2 eexists; by eauto).
  do 3 right. rewrite elem_of_list_filter. by intros [? _].
Qed.
Lemma step_ginv x e x' : ginv x -> od_step E I x e = Some x' -> ginv x'.
Proof.
  intros Hg H. destruct (step_cases _ _ _ _ _ H) as [(t & -> & Ht)|[(n & i & t & o' & t' & -> & Hn & Ha & ->)|[[s ->]|(f & fs & _ & Hfs & [(fs' & Hadd & ->)|[_ ->]])]]]; try done.
  - intros k Hk. destruct (Hg k Hk) as (m & u & Hm & Hu). exists m, u. split; [|done]. by apply lookup_app_l_Some.
  - assert (n < length x.2)%nat as Hlt by (by eapply lookup_lt_Some). simpl.
    assert (forall k, k ∈ od_gpa o' -> k ∈ od_gpa x.1 -> exists m u, <[n:=t']> x.2 !! m = Some u /\ (loads_prog u k.1 k.2 \/ u = TDead \/ exists e, u = PDone (RErr e))) as Hold.
    { intros [p cs] Hk' Hk. destruct (Hg _ Hk) as (m & u & Hm & Hu). simpl in *. destruct (decide (m = n)) as [->|Hne].
      - rewrite Hn in Hm. injection Hm as <-. exists n, t'. split; [by apply list_lookup_insert|]. destruct (adv_final _ _ _ _ _ Ha) as [Hd Hp].
        destruct Hu as [Hu|[->|[er ->]]]; [|done|by destruct (Hp (RErr er))]. destruct (adv_loads _ _ _ _ _ _ _ Ha Hu) as [?|[?|[?|?]]]; auto. done.
      - exists m, u. split; [|done]. by rewrite list_lookup_insert_ne. }
    intros k Hk. simpl in Hk. pose proof (adv_prog _ _ _ _ _ _ _ Ha) as [Hs _ _|p fl ok c -> -> _ Hs _|p fl c -> -> Hs _].
    + apply Hold; [done|]. by rewrite <- Hs.
    + pose proof Hk as Hk'. rewrite Hs in Hk. apply elem_of_cons in Hk as [->|Hk]; [|by apply Hold]. exists n. eexists. split; [by apply list_lookup_insert|].
      simpl. destruct ok; [left; exists fl, c; by auto|right; right; by eexists].
    + apply Hold; [done|]. rewrite Hs in Hk. by apply elem_of_list_filter in Hk as [_ ?].
Qed.
Lemma leads_ginv s f0 l x : leads E I s f0 l x -> ginv x.
Proof. apply od_ind; [|intros; by eapply step_ginv]. intros k Hk. by apply elem_of_nil in Hk. Qed.
End ninv.

From Verif Require Import Base DataModel FilterModel FilterSpec.

Lemma slice_match_spec off pat data :
  slice_match off pat data = true <->
  exists before after, data = before ++ pat ++ after /\ lenN before = off.
Proof.
  unfold slice_match. destruct (N.ltb_spec (lenN data) off) as [H1|H1].
  - split; [done|]. intros (b & a & -> & <-). exfalso.
    unfold lenN in H1. rewrite app_length in H1. lia.
  - destruct (N.ltb_spec (lenN (drop (N.to_nat off) data)) (lenN pat)) as [H2|H2].
    + split; [done|]. intros (b & a & -> & <-). exfalso.
      unfold lenN in *. rewrite Nat2N.id in H2. rewrite drop_app in H2.
      rewrite app_length in H2. lia.
    + rewrite bool_decide_eq_true. split.
      * intros Ht. exists (take (N.to_nat off) data), (drop (length pat) (drop (N.to_nat off) data)).
        split.
        -- rewrite <- Ht at 1. by rewrite take_drop, take_drop.
        -- unfold lenN in *. rewrite take_length. lia.
      * intros (b & a & -> & <-). unfold lenN. rewrite Nat2N.id, drop_app, take_app. done.
Qed.

Section proofs.
Context (E : ext).
Local Notation holds := (holds E).
Local Notation pattern := (pattern E).
Local Notation decodable_cond := (decodable_cond E).
Local Notation decodable := (decodable E).
Local Notation selects := (selects E).
Local Notation any_selects := (any_selects E).
Local Notation plain := (plain E).
Local Notation allows := (allows E).
Local Notation satisfies := (satisfies E).
Local Notation add_filter := (add_filter E).
Local Notation add_filters := (add_filters E).
Local Notation normalize := (normalize E).

Lemma memcmp_bytes_pattern m : memcmp_bytes E m = unwrap (pattern (m_data m)).
Proof. by destruct m as [o []]. Qed.

Lemma bytes_match_unfold m data :
  bytes_match E m data = (b ← unwrap (pattern (m_data m)); Done (slice_match (m_offset m) b data)).
Proof. by destruct m as [o []]. Qed.

Lemma bytes_match_true m data :
  bytes_match E m data = Done true <-> holds (MemcmpC m) data.
Proof.
  rewrite bytes_match_unfold. simpl. destruct (pattern (m_data m)) as [b|]; simpl.
  - split.
    + intros [= H]. apply slice_match_spec in H as (x & y & H & H'). by exists b, x, y.
    + intros (pat & x & y & [= ->] & H & H'). f_equal. apply slice_match_spec. by exists x, y.
  - split; [done|]. by intros (? & ? & ? & ? & ?).
Qed.

Lemma allows_true c d : allows c d = Done true <-> holds c d.
Proof.
  destruct c as [n|m]; [|apply bytes_match_true].
  simpl. split; [intros [= H]; by apply N.eqb_eq|intros ->; by rewrite N.eqb_refl].
Qed.

Lemma allows_total c d : decodable_cond c -> exists b, allows c d = Done b.
Proof.
  destruct c as [n|m]; simpl; [eauto|]. intros [p Hp]. rewrite bytes_match_unfold, Hp. simpl. eauto.
Qed.

(** Decides the predicate in all cases with a decodable pattern. *)
Lemma allows_spec c d : decodable_cond c ->
  exists b, allows c d = Done b /\ (b = true <-> holds c d).
Proof.
  intros [b Hb]%(allows_total c d). exists b. split; [done|]. rewrite <- allows_true, Hb.
  split; congruence.
Qed.

(** *** Sets of conditions *)
Lemma cond_key_inj c c' : cond_key c = cond_key c' -> c = c'.
Proof.
  assert (Hinj : Inj (=) (=) b2n) by (intros ? ?; apply b2n_inj).
  destruct c as [n|[o []]], c' as [n'|[o' []]]; simpl; intros Heq; try discriminate Heq;
    injection Heq; intros; subst; try done;
    repeat match goal with Hm : map b2n _ = map b2n _ |- _ => apply (inj (fmap b2n)) in Hm; subst end; done.
Qed.
Lemma bset_insert_elem c s x : x ∈ bset_insert c s <-> x = c \/ x ∈ s.
Proof.
  induction s as [|y s IH]; simpl.
  - rewrite elem_of_list_singleton, elem_of_nil. naive_solver.
  - destruct (lexcmp (cond_key c) (cond_key y)) eqn:Hc.
    + apply lexcmp_eq, cond_key_inj in Hc as ->. rewrite elem_of_cons. naive_solver.
    + by rewrite elem_of_cons.
    + rewrite elem_of_cons, IH, elem_of_cons. naive_solver.
Qed.
Lemma bset_of_elem l x : x ∈ bset_of l <-> x ∈ l.
Proof.
  unfold bset_of. assert (forall s, x ∈ fold_left (fun s c => bset_insert c s) l s <-> x ∈ s \/ x ∈ l) as H.
  { induction l as [|c l IH]; intros s; simpl.
    - rewrite elem_of_nil. naive_solver.
    - rewrite IH, bset_insert_elem, elem_of_cons. naive_solver. }
  rewrite H, elem_of_nil. naive_solver.
Qed.

Definition cond_lt (a b : cond) : Prop := lexcmp (cond_key a) (cond_key b) = Lt.
#[local] Instance cond_lt_trans : Transitive cond_lt.
Proof. intros ? ? ?; apply lexcmp_trans. Qed.

Lemma bset_insert_sorted c s :
  StronglySorted cond_lt s -> StronglySorted cond_lt (bset_insert c s).
Proof.
  induction s as [|y s IH]; simpl; intros Hs.
  - by constructor; [constructor|].
  - apply StronglySorted_inv in Hs as [Hs Hy].
    destruct (lexcmp (cond_key c) (cond_key y)) eqn:Hc.
    + by constructor.
    + constructor; [by constructor|]. constructor; [done|].
      eapply Forall_impl; [exact Hy|]. simpl. intros z Hz. eapply lexcmp_trans; eauto.
    + constructor; [by apply IH|]. apply Forall_forall. intros z Hz.
      apply bset_insert_elem in Hz as [->|Hz].
      * unfold cond_lt. by rewrite lexcmp_antisym, Hc.
      * eapply Forall_forall in Hy; eauto.
Qed.
Lemma bset_of_sorted l : StronglySorted cond_lt (bset_of l).
Proof.
  unfold bset_of. assert (forall s, StronglySorted cond_lt s ->
    StronglySorted cond_lt (fold_left (fun s c => bset_insert c s) l s)) as H.
  { induction l as [|c l IH]; intros s Hs; simpl; [done|]. apply IH. by apply bset_insert_sorted. }
  apply H. constructor.
Qed.
Lemma bset_insert_last c s : Forall (fun y => cond_lt y c) s -> bset_insert c s = s ++ [c].
Proof.
  induction s as [|y s IH]; simpl; intros Hs; [done|].
  apply Forall_cons in Hs as [Hy Hs]. unfold cond_lt in Hy.
  rewrite lexcmp_antisym, Hy. simpl. by rewrite IH.
Qed.
(** Collecting an already sorted sequence again changes nothing. *)
Lemma bset_of_id s : StronglySorted cond_lt s -> bset_of s = s.
Proof.
  unfold bset_of. assert (forall s t, StronglySorted cond_lt (t ++ s) ->
    fold_left (fun s c => bset_insert c s) s t = t ++ s) as H.
  { clear s. induction s as [|c s IH]; intros t Ht; simpl; [by rewrite app_nil_r|].
    rewrite bset_insert_last.
    - rewrite IH; [by rewrite <- app_assoc|]. by rewrite <- app_assoc.
    - clear IH. induction t as [|y t IH]; [constructor|].
      simpl in Ht. apply StronglySorted_inv in Ht as [Ht Hy]. constructor; [|by apply IH].
      eapply Forall_forall in Hy; [exact Hy|]. apply elem_of_app. right. left. }
  intros Hs. by apply (H s []).
Qed.
Lemma bset_of_idemp l : bset_of (bset_of l) = bset_of l.
Proof. apply bset_of_id, bset_of_sorted. Qed.

(** *** Representation invariant: the store against the list of added filters *)
Definition conds_of (fs : list afilter) (p : pubkey) : list (option (list cond)) :=
  omap (fun f => if decide (f_program f = Some p) then Some (f_filters f) else None) fs.

Lemma conds_of_app fs gs p : conds_of (fs ++ gs) p = conds_of fs p ++ conds_of gs p.
Proof. unfold conds_of. by rewrite omap_app. Qed.

(** Two condition lists with the same meaning. *)
Definition cequiv (s l : list cond) : Prop :=
  Forall decodable_cond s /\ forall d, Forall (fun c => holds c d) s <-> Forall (fun c => holds c d) l.

Definition rep_prog (o : option pfilters) (l : list (option (list cond))) : Prop :=
  match o with
  | None => l = []
  | Some AllowAll => None ∈ l
  | Some (ByFilter fl) => exists ls, l = Some <$> ls /\ Forall2 cequiv fl ls
  end.

Definition rep (st : fstore) (fs : list afilter) : Prop :=
  (forall pk, pk ∈ fs_accounts st <-> exists f, f ∈ fs /\ pk ∈ f_accounts f) /\
  (forall p, rep_prog (fs_programs st !! p) (conds_of fs p)).

Lemma rep_empty : rep fstore_empty [].
Proof.
  split.
  - intros pk. simpl. split; [set_solver|]. intros (f & Hf & _). by apply elem_of_nil in Hf.
  - intros p. simpl. by rewrite lookup_empty.
Qed.

Lemma normalize_ok c : decodable_cond c -> exists c', normalize c = Done c' /\ decodable_cond c' /\
  raw_cond c' /\ forall d, holds c' d <-> holds c d.
Proof.
  destruct c as [n|[o []]]; simpl.
  - intros _. exists (Datasize n). repeat split; by (simpl; auto).
  - intros _. eexists; split; [done|]. simpl. split_and!; eauto.
  - intros [p Hp]. unfold memcmp_bytes. simpl. rewrite Hp. simpl. eexists; split; [done|]. simpl.
    split_and!; rewrite ?Hp; eauto.
  - intros [p Hp]. unfold memcmp_bytes. simpl. rewrite Hp. simpl. eexists; split; [done|]. simpl.
    split_and!; rewrite ?Hp; eauto.
Qed.
Lemma normalize_list l : Forall decodable_cond l -> exists l', map_r normalize l = Done l' /\
  Forall decodable_cond l' /\ Forall raw_cond l' /\
  forall d, Forall (fun c => holds c d) l' <-> Forall (fun c => holds c d) l.
Proof.
  induction 1 as [|c l Hc Hl IH]; simpl.
  - exists []. repeat split; by constructor.
  - destruct IH as (l' & -> & Hd' & Hr' & Heq).
    destruct (normalize_ok c Hc) as (c' & -> & Hdc & Hrc & Hceq). simpl.
    exists (c' :: l'). split; [done|]. split_and!; [by constructor|by constructor|].
    intros d. by rewrite !Forall_cons, Heq, Hceq.
Qed.
Lemma normalize_raw c : raw_cond c -> normalize c = Done c.
Proof. destruct c as [n|m]; simpl; [done|]. by intros [b ->]. Qed.
Lemma normalize_list_raw l : Forall raw_cond l -> map_r normalize l = Done l.
Proof. induction 1 as [|c l Hc Hl IH]; simpl; [done|]. by rewrite (normalize_raw c Hc), IH. Qed.

Lemma bset_of_forall (P : cond -> Prop) l : Forall P (bset_of l) <-> Forall P l.
Proof. rewrite !Forall_forall. setoid_rewrite bset_of_elem. done. Qed.

Lemma conds_of_same f p : f_program f = Some p -> conds_of [f] p = [f_filters f].
Proof. intros H. unfold conds_of. simpl. by rewrite decide_True. Qed.
Lemma conds_of_other f p : f_program f <> Some p -> conds_of [f] p = [].
Proof. intros H. unfold conds_of. simpl. by rewrite decide_False. Qed.

Lemma add_filter_rep st fs f :
  rep st fs -> decodable f -> exists st', add_filter st f = Done st' /\ rep st' (fs ++ [f]).
Proof.
  intros [Ha Hp] Hd.
  assert (forall pk, pk ∈ fs_accounts st ∪ list_to_set (f_accounts f) <->
    exists g, g ∈ fs ++ [f] /\ pk ∈ f_accounts g) as Ha'.
  { intros pk. rewrite elem_of_union, elem_of_list_to_set, Ha. setoid_rewrite elem_of_app.
    setoid_rewrite elem_of_list_singleton. split.
    - intros [(g & ? & ?)|?]; eauto.
    - intros (g & [?| ->] & ?); eauto. }
  unfold FilterModel.add_filter. destruct (f_program f) as [p|] eqn:Hprog.
  - assert (forall q, q <> p -> conds_of (fs ++ [f]) q = conds_of fs q) as Hother.
    { intros q Hq. rewrite conds_of_app, (conds_of_other f q), app_nil_r; [done|]. congruence. }
    assert (conds_of (fs ++ [f]) p = conds_of fs p ++ [f_filters f]) as Hsame.
    { by rewrite conds_of_app, (conds_of_same f p). }
    pose proof (Hp p) as Hpp. destruct (fs_programs st !! p) as [[|fl]|] eqn:Hlk.
    + eexists; split; [done|]. split; [done|]. simpl. intros q. destruct (decide (q = p)) as [->|Hq].
      * rewrite Hlk, Hsame. simpl in *. apply elem_of_app. by left.
      * rewrite Hother by done. apply Hp.
    + destruct Hpp as (ls & Hls & Hfl). destruct (f_filters f) as [new|] eqn:Hff.
      * eexists; split; [done|]. split; [done|]. simpl. intros q. destruct (decide (q = p)) as [->|Hq].
        -- rewrite lookup_insert, Hsame. simpl. exists (ls ++ [new]). split.
           { rewrite fmap_app, Hls. done. }
           apply Forall2_app; [done|]. constructor; [|constructor]. split.
           { apply bset_of_forall. by apply Hd. }
           intros d. apply bset_of_forall.
        -- rewrite lookup_insert_ne, Hother by done. apply Hp.
      * eexists; split; [done|]. split; [done|]. simpl. intros q. destruct (decide (q = p)) as [->|Hq].
        -- rewrite lookup_insert, Hsame. simpl. apply elem_of_app. right. left.
        -- rewrite lookup_insert_ne, Hother by done. apply Hp.
    + simpl in Hpp. destruct (f_filters f) as [new|] eqn:Hff.
      * destruct (normalize_list new) as (n & Hn & Hdn & Hrn & Heq); [by apply Hd|].
        rewrite Hn. eexists; split; [done|]. split; [done|]. simpl.
        intros q. destruct (decide (q = p)) as [->|Hq].
        -- rewrite lookup_insert, Hsame, Hpp. simpl. exists [new]. split; [done|].
           constructor; [|constructor]. split; [by apply bset_of_forall|].
           intros d. by rewrite bset_of_forall.
        -- rewrite lookup_insert_ne, Hother by done. apply Hp.
      * eexists; split; [done|]. split; [done|]. simpl. intros q. destruct (decide (q = p)) as [->|Hq].
        -- rewrite lookup_insert, Hsame. simpl. apply elem_of_app. right. left.
        -- rewrite lookup_insert_ne, Hother by done. apply Hp.
  - eexists; split; [done|]. split; [done|]. simpl. intros q. rewrite conds_of_app, (conds_of_other f q) by congruence.
    rewrite app_nil_r. apply Hp.
Qed.

Lemma add_filters_rep st fs gs :
  rep st fs -> Forall decodable gs -> exists st', add_filters st gs = Done st' /\ rep st' (fs ++ gs).
Proof.
  revert st fs. induction gs as [|g gs IH]; intros st fs Hr Hd; simpl.
  - exists st. by rewrite app_nil_r.
  - apply Forall_cons in Hd as [Hg Hd].
    destruct (add_filter_rep st fs g Hr Hg) as (st1 & H1 & Hr1).
    rewrite H1. simpl.
    destruct (IH st1 (fs ++ [g]) Hr1 Hd) as (st2 & H2 & Hr2). exists st2. split; [done|].
    by rewrite <- app_assoc in Hr2.
Qed.

Lemma conds_of_elem fs p o : o ∈ conds_of fs p <-> exists f, f ∈ fs /\ f_program f = Some p /\ f_filters f = o.
Proof.
  unfold conds_of. rewrite elem_of_list_omap. split.
  - intros (f & Hf & H). case_decide; simplify_eq. eauto.
  - intros (f & Hf & Hp & <-). exists f. split; [done|]. by rewrite decide_True.
Qed.

Lemma satisfies_rep st fs a d :
  rep st fs -> plain a d -> exists b, satisfies st a = Done b /\ (b = true <-> any_selects fs a).
Proof.
  intros [Ha Hp] Hd. unfold FilterModel.satisfies. unfold FilterSpec.plain in Hd.
  destruct (bool_decide (d_pubkey a ∈ fs_accounts st)) eqn:Hin.
  - exists true. split; [done|]. split; [|done]. intros _.
    apply bool_decide_eq_true in Hin. apply Ha in Hin as (f & Hf & Hin).
    exists f. split; [done|]. by left.
  - apply bool_decide_eq_false in Hin. rewrite Ha in Hin.
    assert (any_selects fs a <-> exists o, o ∈ conds_of fs (d_owner a) /\
      forall l, o = Some l -> Forall (fun c => holds c d) l) as Heq.
    { split.
      - intros (f & Hf & [Hpk|[Hpr Hc]]); [exfalso; eauto|].
        exists (f_filters f). split; [apply conds_of_elem; eauto|].
        intros l Hl. destruct (Hc l Hl) as (d' & Hd' & Hh). unfold FilterSpec.plain in Hd'.
        rewrite Hd in Hd'. simplify_eq. by apply Forall_forall.
      - intros (o & Ho & Hh). apply conds_of_elem in Ho as (f & Hf & Hpr & <-).
        exists f. split; [done|]. right. split; [done|]. intros l Hl. exists d. split; [done|].
        apply Forall_forall. auto. }
    setoid_rewrite Heq. clear Heq. pose proof (Hp (d_owner a)) as Hpp.
    destruct (fs_programs st !! d_owner a) as [[|fl]|]; simpl in Hpp.
    + exists true. split; [done|]. split; [|done]. intros _. exists None. by split.
    + destruct Hpp as (ls & -> & Hfl).
      assert (forall s, s ∈ fl -> exists b, all_r (fun c => d ← data_bytes E (d_data a); allows c d) s = Done b) as Htot.
      { intros s Hs. destruct (all_r _ s) eqn:Hall; [eauto|]. exfalso. revert Hall. apply all_r_nopanic.
        intros c Hc. rewrite Hd. simpl. apply elem_of_list_lookup in Hs as [i Hi].
        destruct (Forall2_lookup_l _ _ _ _ _ Hfl Hi) as (l & _ & [Hdec _]).
        eapply Forall_forall in Hdec; [|exact Hc]. by destruct (allows_total c d Hdec) as [b ->]. }
      destruct (any_r _ fl) as [b|] eqn:Hany; cycle 1.
      { exfalso. revert Hany. apply any_r_nopanic. intros s Hs. by destruct (Htot s Hs) as [b ->]. }
      exists b. split; [done|].
      assert (b = true <-> any_r (all_r (fun c => d ← data_bytes E (d_data a); allows c d)) fl = Done true) as ->.
      { rewrite Hany. split; congruence. }
      rewrite any_r_true; [|intros s Hs; by destruct (Htot s Hs) as [b' ->]].
      setoid_rewrite all_r_true. rewrite Hd. simpl. setoid_rewrite allows_true. split.
      * intros (s & Hs & Hh). apply elem_of_list_lookup in Hs as [i Hi].
        destruct (Forall2_lookup_l _ _ _ _ _ Hfl Hi) as (l & Hl & [_ Hiff]).
        exists (Some l). split.
        { apply elem_of_list_fmap. exists l. split; [done|]. eapply elem_of_list_lookup_2; eauto. }
        intros l' [= <-]. apply Hiff. by apply Forall_forall.
      * intros (o & Ho & Hh). apply elem_of_list_fmap in Ho as (l & -> & Hl).
        apply elem_of_list_lookup in Hl as [i Hi].
        destruct (Forall2_lookup_r _ _ _ _ _ Hfl Hi) as (s & Hs & [_ Hiff]).
        exists s. split; [eapply elem_of_list_lookup_2; eauto|].
        apply Forall_forall. apply Hiff. by apply Hh.
    + exists false. split; [done|]. split; [done|]. intros (o & Ho & _). rewrite Hpp in Ho. by apply elem_of_nil in Ho.
Qed.

(** C01 *)
Lemma satisfies_correct fs a d :
  Forall decodable fs -> plain a d ->
  exists st b, add_filters fstore_empty fs = Done st /\ satisfies st a = Done b /\
    (b = true <-> any_selects fs a).
Proof.
  intros Hd Hpl. destruct (add_filters_rep _ _ _ rep_empty Hd) as (st & Hst & Hr).
  destruct (satisfies_rep _ _ _ _ Hr Hpl) as (b & Hb & Hiff). simpl in *. by exists st, b.
Qed.

(** C02 *)
Lemma contains_sound_rep st fs q a d :
  rep st fs -> plain a d -> contains_filter st q = true -> selects q a -> satisfies st a = Done true.
Proof.
  intros Hr Hpl Hc Hs. destruct (satisfies_rep _ _ _ _ Hr Hpl) as (b & Hb & Hiff).
  rewrite Hb. f_equal. apply Hiff. destruct Hr as [Ha Hp].
  unfold contains_filter in Hc. apply andb_true_iff in Hc as [Hca Hcp].
  destruct Hs as [Hpk|[Hpr Hcond]].
  - rewrite forallb_forall in Hca. specialize (Hca (d_pubkey a)).
    feed specialize Hca; [by apply elem_of_list_In|]. apply bool_decide_eq_true in Hca.
    apply Ha in Hca as (f & Hf & Hin). exists f. split; [done|]. by left.
  - rewrite Hpr in Hcp. pose proof (Hp (d_owner a)) as Hpp.
    destruct (fs_programs st !! d_owner a) as [[|fl]|] eqn:Hlk; simpl in Hpp; [| |done].
    + apply conds_of_elem in Hpp as (f & Hf & Hfp & Hff). exists f. split; [done|]. right.
      split; [done|]. intros l Hl. congruence.
    + destruct Hpp as (ls & Hls & Hfl). destruct (f_filters q) as [l|] eqn:Hq; [|done].
      apply existsb_exists in Hcp as (stored & Hin & Hm).
      destruct (length stored <=? length (bset_of l))%nat; [|done].
      apply bool_decide_eq_true in Hm.
      apply elem_of_list_In, elem_of_list_lookup in Hin as [i Hi].
      destruct (Forall2_lookup_l _ _ _ _ _ Hfl Hi) as (l0 & Hl0 & [_ Hequiv]).
      destruct (Hcond l eq_refl) as (d' & Hd' & Hh). unfold FilterSpec.plain in *.
      rewrite Hpl in Hd'. simplify_eq.
      assert (Some l0 ∈ conds_of fs (d_owner a)) as Hel.
      { rewrite Hls. apply elem_of_list_fmap. exists l0. split; [done|]. eapply elem_of_list_lookup_2; eauto. }
      apply conds_of_elem in Hel as (f & Hf & Hfp & Hff). exists f. split; [done|]. right. split; [done|].
      intros l1 Hl1. rewrite Hff in Hl1. simplify_eq. exists d'. split; [done|].
      apply Forall_forall, Hequiv, Forall_forall. intros c Hc. rewrite <- Hm in Hc.
      apply (proj1 (bset_of_elem _ _)) in Hc. apply elem_of_take in Hc as (j & Hj & _).
      apply elem_of_list_lookup_2 in Hj. apply (proj1 (bset_of_elem _ _)) in Hj. auto.
Qed.

Lemma contains_sound fs st q a d :
  Forall decodable fs -> add_filters fstore_empty fs = Done st -> plain a d ->
  contains_filter st q = true -> selects q a -> satisfies st a = Done true.
Proof.
  intros Hd Hst Hpl. destruct (add_filters_rep _ _ _ rep_empty Hd) as (st' & Hst' & Hr).
  assert (st' = st) as ->.
  { rewrite Hst' in Hst. by simplify_eq. }
  by eapply contains_sound_rep.
Qed.

(** C03 *)
Lemma add_filter_mono st f st' :
  add_filter st f = Done st' ->
  fs_accounts st ⊆ fs_accounts st' /\
  forall p, match fs_programs st !! p with
            | None => True
            | Some AllowAll => fs_programs st' !! p = Some AllowAll
            | Some (ByFilter fl) => fs_programs st' !! p = Some AllowAll \/
                exists ex, fs_programs st' !! p = Some (ByFilter (fl ++ ex))
            end.
Proof.
  intros H. assert (fs_accounts st' = fs_accounts st ∪ list_to_set (f_accounts f)) as Hacc.
  { revert H. unfold FilterModel.add_filter. destruct (f_program f); [|by intros [= <-]].
    destruct (_ !! _) as [[|fl]|], (f_filters f) as [l|]; try by intros [= <-].
    simpl. destruct (map_r _ l); simpl; [|done]. by intros [= <-]. }
  split; [rewrite Hacc; set_solver|]. intros p.
  revert H. unfold FilterModel.add_filter. destruct (f_program f) as [p'|]; cycle 1.
  { intros [= <-]. simpl. destruct (_ !! p) as [[|]|]; try done. right. exists []. by rewrite app_nil_r. }
  destruct (decide (p = p')) as [->|Hne].
  - destruct (fs_programs st !! p') as [[|cur]|] eqn:Hlk; [| |done].
    + by intros [= <-].
    + destruct (f_filters f) as [l|]; intros [= <-]; simpl; rewrite lookup_insert; eauto.
  - intros H. assert (fs_programs st' !! p = fs_programs st !! p) as Heq.
    { revert H. destruct (fs_programs st !! p') as [[|fl]|] eqn:Hlk, (f_filters f) as [l|]; simpl;
        try (destruct (map_r _ l); simpl; [|done]);
        intros Heq; injection Heq as <-; simpl; rewrite ?lookup_insert_ne by done; done. }
    rewrite Heq. clear Heq H. destruct (fs_programs st !! p) as [[|fl]|]; [done| |done]. right. exists []. by rewrite app_nil_r.
Qed.
Lemma add_filters_mono st fs st' :
  add_filters st fs = Done st' ->
  fs_accounts st ⊆ fs_accounts st' /\
  forall p, match fs_programs st !! p with
            | None => True
            | Some AllowAll => fs_programs st' !! p = Some AllowAll
            | Some (ByFilter fl) => fs_programs st' !! p = Some AllowAll \/
                exists ex, fs_programs st' !! p = Some (ByFilter (fl ++ ex))
            end.
Proof.
  revert st. induction fs as [|f fs IH]; intros st.
  - intros [= <-]. split; [done|]. intros p. destruct (_ !! p) as [[|]|]; try done.
    right. exists []. by rewrite app_nil_r.
  - simpl. destruct (FilterModel.add_filter E st f) as [st1|] eqn:H1; simpl; [|done].
    intros H. apply IH in H as [Ha Hp]. apply add_filter_mono in H1 as [Ha1 Hp1].
    split; [set_solver|]. intros p. specialize (Hp p). specialize (Hp1 p).
    destruct (fs_programs st !! p) as [[|fl]|]; [| |done].
    + by rewrite Hp1 in Hp.
    + destruct Hp1 as [Hp1|[ex Hp1]]; rewrite Hp1 in Hp; [by left|].
      destruct Hp as [?|[ex' ?]]; [by left|]. right. exists (ex ++ ex'). by rewrite app_assoc.
Qed.
Lemma satisfies_mono st fs st' a :
  add_filters st fs = Done st' -> satisfies st a = Done true -> satisfies st' a = Done true.
Proof.
  intros [Ha Hp]%add_filters_mono. unfold FilterModel.satisfies.
  destruct (bool_decide (d_pubkey a ∈ fs_accounts st)) eqn:H1.
  { intros _. apply bool_decide_eq_true in H1. rewrite bool_decide_true; [done|set_solver]. }
  destruct (bool_decide (d_pubkey a ∈ fs_accounts st')); [done|]. specialize (Hp (d_owner a)).
  destruct (fs_programs st !! d_owner a) as [[|fl]|]; [by rewrite Hp| |done].
  destruct Hp as [Hp|[ex Hp]]; rewrite Hp; [done|]. apply any_r_app_true.
Qed.
Lemma contains_filter_mono st fs st' q :
  add_filters st fs = Done st' -> contains_filter st q = true -> contains_filter st' q = true.
Proof.
  intros [Ha Hp]%add_filters_mono. unfold contains_filter. rewrite !andb_true_iff.
  intros [H1 H2]. split.
  - rewrite forallb_forall in *. intros pk Hpk. specialize (H1 pk Hpk).
    apply bool_decide_eq_true in H1. apply bool_decide_eq_true. set_solver.
  - destruct (f_program q) as [p|]; [|done]. specialize (Hp p).
    destruct (fs_programs st !! p) as [[|fl]|]; [by rewrite Hp| |done].
    destruct (f_filters q) as [l|]; [|done].
    destruct Hp as [Hp|[ex Hp]]; rewrite Hp; [done|].
    rewrite existsb_app, H2. done.
Qed.
Lemma contains_account_mono st fs st' pk :
  add_filters st fs = Done st' -> contains_account st pk = true -> contains_account st' pk = true.
Proof.
  intros [Ha _]%add_filters_mono. unfold contains_account. rewrite !bool_decide_eq_true. set_solver.
Qed.

(** C04 *)
Lemma existsb_self l fl :
  (exists stored, stored ∈ fl /\ stored = bset_of l) ->
  existsb (fun stored =>
    if (length stored <=? length (bset_of l))%nat
    then bool_decide (bset_of (take (length stored) (bset_of l)) = stored) else false) fl = true.
Proof.
  intros (s & Hs & ->). apply existsb_exists. exists (bset_of l). split; [by apply elem_of_list_In|].
  rewrite Nat.leb_refl. apply bool_decide_eq_true. rewrite take_ge by done. apply bset_of_idemp.
Qed.
Lemma accounts_self st f st' :
  add_filter st f = Done st' ->
  forallb (fun pk => bool_decide (pk ∈ fs_accounts st')) (f_accounts f) = true.
Proof.
  intros H. assert (fs_accounts st' = fs_accounts st ∪ list_to_set (f_accounts f)) as Hacc.
  { revert H. unfold FilterModel.add_filter. destruct (f_program f); [|by intros [= <-]].
    destruct (_ !! _) as [[|fl]|], (f_filters f) as [l|]; try by intros [= <-].
    simpl. destruct (map_r _ l); simpl; [|done]. by intros [= <-]. }
  rewrite forallb_forall. intros pk Hpk%elem_of_list_In. apply bool_decide_eq_true. rewrite Hacc.
  set_solver.
Qed.
Lemma contains_self_raw st f st' :
  raw_filter f -> add_filter st f = Done st' -> contains_filter st' f = true.
Proof.
  intros Hraw Hadd. unfold contains_filter. rewrite (accounts_self _ _ _ Hadd). simpl.
  destruct (f_program f) as [p|] eqn:Hp; [|done].
  revert Hadd. unfold FilterModel.add_filter. rewrite Hp.
  destruct (fs_programs st !! p) as [[|fl]|] eqn:Hlk.
  - intros [= <-]. simpl. by rewrite Hlk.
  - destruct (f_filters f) as [l|]; intros [= <-]; simpl; rewrite lookup_insert; [|done].
    apply existsb_self. exists (bset_of l). split; [|done]. apply elem_of_app. right. left.
  - destruct (f_filters f) as [l|] eqn:Hf; simpl.
    + pose proof (normalize_list_raw l (Hraw l Hf)) as Hn. rewrite Hn. simpl.
      intros [= <-]; simpl; rewrite lookup_insert. apply existsb_self. exists (bset_of l). split; [left|done].
    + intros [= <-]; simpl; by rewrite lookup_insert.
Qed.
(** A filter added a second time is always reported. *)
Lemma contains_self_twice st f st1 st2 :
  add_filter st f = Done st1 -> add_filter st1 f = Done st2 -> contains_filter st2 f = true.
Proof.
  intros H1 H2. unfold contains_filter. rewrite (accounts_self _ _ _ H2). simpl.
  destruct (f_program f) as [p|] eqn:Hp; [|done].
  assert (is_Some (fs_programs st1 !! p)) as [pf Hpf].
  { revert H1. unfold FilterModel.add_filter. rewrite Hp.
    destruct (fs_programs st !! p) as [[|fl]|] eqn:Hlk.
    - intros [= <-]. simpl. by rewrite Hlk.
    - destruct (f_filters f) as [l|]; intros [= <-]; simpl; rewrite lookup_insert; eauto.
    - destruct (f_filters f) as [l|]; simpl.
      + destruct (map_r _ l); simpl; [|done]. intros [= <-]; simpl; rewrite lookup_insert; eauto.
      + intros [= <-]; simpl; rewrite lookup_insert; eauto. }
  revert H2. unfold FilterModel.add_filter. rewrite Hp, Hpf. destruct pf as [|fl].
  - intros [= <-]. simpl. by rewrite Hpf.
  - destruct (f_filters f) as [l|]; intros [= <-]; simpl; rewrite lookup_insert; [|done].
    apply existsb_self. exists (bset_of l). split; [|done]. apply elem_of_app. right. left.
Qed.

(** C05 *)
Lemma encodings_agree o d1 d2 p data :
  pattern d1 = Some p -> pattern d2 = Some p ->
  bytes_match E (Memcmp o d1) data = bytes_match E (Memcmp o d2) data /\
  bytes_match E (Memcmp o d1) data <> Panic.
Proof. intros H1 H2. rewrite !bytes_match_unfold. simpl. rewrite H1, H2. done. Qed.

(** C06 *)
Lemma except_complement fs a d :
  Forall decodable fs -> plain a d ->
  exists st b, add_filters fstore_empty fs = Done st /\ except_satisfies E st a = Done b /\
    (b = true <-> ~ any_selects fs a).
Proof.
  intros Hd Hpl. destruct (satisfies_correct fs a d Hd Hpl) as (st & b & Hst & Hb & Hiff).
  exists st, (negb b). split; [done|]. unfold except_satisfies. rewrite Hb. simpl.
  split; [done|]. rewrite <- Hiff. destruct b; naive_solver.
Qed.
Lemma except_coverage_whole fs st q p a :
  Forall whole_program fs -> add_filters fstore_empty fs = Done st ->
  f_accounts q = [] -> f_program q = Some p ->
  except_contains st q = true -> selects q a -> except_satisfies E st a = Done true.
Proof.
  intros Hw Hst Hqa Hqp Hc Hsel.
  assert (Forall decodable fs) as Hd.
  { eapply Forall_impl; [exact Hw|]. intros f [_ Hf] l Hl. congruence. }
  destruct (add_filters_rep _ _ _ rep_empty Hd) as (st' & Hst' & Ha & Hp).
  assert (st' = st) as ->. { rewrite Hst' in Hst. by simplify_eq. }
  unfold except_contains, contains_filter in Hc. rewrite Hqa, Hqp in Hc. simpl in Hc.
  destruct Hsel as [Hpk|[Hpr _]]; [rewrite Hqa in Hpk; by apply elem_of_nil in Hpk|].
  rewrite Hqp in Hpr. injection Hpr as ->.
  unfold except_satisfies, FilterModel.satisfies.
  rewrite bool_decide_false; cycle 1.
  { rewrite Ha. simpl. intros (f & Hf & Hin). eapply Forall_forall in Hw as [Hw _]; [|exact Hf].
    rewrite Hw in Hin. by apply elem_of_nil in Hin. }
  pose proof (Hp (d_owner a)) as Hpp. simpl in Hpp.
  destruct (fs_programs st !! d_owner a) as [[|fl]|] eqn:Hlk; [done| |done].
  destruct Hpp as (ls & Hls & Hfl). destruct fl as [|s fl]; [done|].
  inversion Hfl as [|? l ? ls' Hsl Hfl']; subst. clear Hfl. exfalso.
  assert (Some l ∈ conds_of fs (d_owner a)) as Hin by (rewrite Hls; left).
  apply conds_of_elem in Hin as (f & Hf & _ & Hff).
  eapply Forall_forall in Hw as [_ Hw]; [|exact Hf]. congruence.
Qed.

(** C07 *)
Lemma rpc_direct c a d :
  plain a d -> data_len (d_data a) = lenN d -> decodable_cond c ->
  acct_allows E a (to_rpc c) = allows c d.
Proof.
  intros Hd Hl Hdec. destruct c as [n|m]; simpl.
  - by rewrite Hl.
  - unfold FilterSpec.plain in Hd. rewrite Hd. simpl. rewrite bytes_match_unfold. unfold rpc_bytes_match.
    destruct Hdec as [p Hp]. rewrite Hp.
    assert (rpc_memcmp_bytes E (m_data m) = Some p) as ->; [|done].
    revert Hp. by destruct (m_data m).
Qed.
Lemma rpc_roundtrip c : decodable_cond c ->
  exists c', from_rpc E (to_rpc c) = Done c' /\ forall data, allows c' data = allows c data.
Proof.
  destruct c as [n|m]; simpl; [eauto|]. intros [p Hp]. eexists; split; [done|].
  intros data. simpl. rewrite !bytes_match_unfold. simpl.
  assert (rpc_memcmp_bytes E (m_data m) = Some p) as ->; [|by rewrite Hp].
  revert Hp. by destruct (m_data m).
Qed.
End proofs.

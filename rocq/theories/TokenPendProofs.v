(** Proofs about pending token accounts. *)
From Verif Require Import Base SMap DataModel TokenModel TokenUtilsModel TokenPendModel TokenPendSpec.

(** ** Deletion in a sorted association list *)
Lemma sm_del_elem {A} k (m : smap A) x : x ∈ sm_del k m -> x ∈ m.
Proof.
  induction m as [|[k' v'] m IH]; simpl; [done|]. destruct (k =? k'); [by right|].
  rewrite !elem_of_cons. naive_solver.
Qed.
Lemma sm_del_sorted {A} k (m : smap A) : sm_sorted m -> sm_sorted (sm_del k m).
Proof.
  induction m as [|[k' v'] m IH]; intros Hs; simpl; [done|]. apply sm_sorted_cons in Hs as [Hs Hlt].
  destruct (k =? k'); [done|]. apply sm_sorted_cons. split; [auto|]. intros k2 v2 H. by eapply Hlt, sm_del_elem.
Qed.
Lemma sm_get_del {A} k (m : smap A) : sm_sorted m -> sm_get k (sm_del k m) = None.
Proof.
  induction m as [|[k' v'] m IH]; intros Hs; simpl; [done|]. apply sm_sorted_cons in Hs as [Hs Hlt].
  destruct (N.eqb_spec k k') as [->|Hne].
  - apply sm_get_None. intros v Hv. specialize (Hlt _ _ Hv). lia.
  - simpl. destruct (N.eqb_spec k k'); [done|]. auto.
Qed.
Lemma sm_get_del_ne {A} k k' (m : smap A) : k <> k' -> sm_get k' (sm_del k m) = sm_get k' m.
Proof.
  intros Hne. induction m as [|[k2 v2] m IH]; simpl; [done|]. destruct (N.eqb_spec k k2) as [->|Hk].
  - destruct (N.eqb_spec k' k2); [congruence|done].
  - simpl. by rewrite IH.
Qed.
Lemma sm_del_length {A} k (m : smap A) v : sm_get k m = Some v -> length m = S (length (sm_del k m)).
Proof.
  induction m as [|[k' v'] m IH]; simpl; [done|]. destruct (k =? k'); [done|]. intros H. simpl. by rewrite <- IH.
Qed.
Lemma pop_upto_sorted s (p : pend) : sm_sorted p -> sm_sorted (pop_upto s p).
Proof.
  induction p as [|[k b] p IH]; intros Hs; simpl; [done|]. pose proof Hs as [Hs' _]%sm_sorted_cons. destruct (k <=? s); auto.
Qed.
Lemma pop_upto_get s k (p : pend) : sm_sorted p -> sm_get k (pop_upto s p) = if k <=? s then None else sm_get k p.
Proof.
  induction p as [|[k' b] p IH]; intros Hs; simpl; [by destruct (k <=? s)|]. apply sm_sorted_cons in Hs as [Hs Hlt].
  destruct (N.leb_spec k' s) as [Hk|Hk].
  - rewrite IH by done. destruct (N.leb_spec k s); [done|]. destruct (N.eqb_spec k k'); [lia|done].
  - simpl. destruct (N.leb_spec k s); [|done]. destruct (N.eqb_spec k k'); [lia|].
    apply sm_get_None. intros v Hv. specialize (Hlt _ _ Hv). lia.
Qed.

(** ** The specification in terms of lookups *)
Section spec.
Context (p : pend) (Hs : sm_sorted p).
Lemma version_get s pk v : version p s pk v <-> exists b, sm_get s p = Some b /\ ps_accounts b !! pk = Some v.
Proof using Hs. unfold version. by setoid_rewrite sm_get_spec. Qed.
Lemma parent_get s s' : parent p s s' <-> exists b, sm_get s p = Some b /\ ps_parent b = Some s'.
Proof using Hs. unfold parent. by setoid_rewrite sm_get_spec. Qed.
Lemma present_get s : present p s <-> is_Some (sm_get s p).
Proof using Hs. unfold present, is_Some. by setoid_rewrite sm_get_spec. Qed.
Lemma no_version_get s pk b : sm_get s p = Some b -> (forall v, ~ version p s pk v) <-> ps_accounts b !! pk = None.
Proof using Hs.
  intros Hb. split.
  - intros H. destruct (ps_accounts b !! pk) as [v|] eqn:Hv; [|done]. exfalso. apply (H v). apply version_get. eauto.
  - intros H v (b' & Hb' & Hv)%version_get. congruence.
Qed.
End spec.

(** Height of a [nearest] derivation. *)
Inductive near (p : pend) (pk : pubkey) : nat -> N -> pacct * N -> Prop :=
| near0 s b v : sm_get s p = Some b -> ps_accounts b !! pk = Some v -> near p pk 0 s (v, s)
| nearS n s s' b x : sm_get s p = Some b -> ps_accounts b !! pk = None -> ps_parent b = Some s' -> near p pk n s' x -> near p pk (S n) s x.
Lemma nearest_near p pk s x : sm_sorted p -> nearest p pk s x <-> exists n, near p pk n s x.
Proof.
  intros Hs. split.
  - induction 1 as [s v (b & Hb & Hv)%version_get|s s' x Hn (b & Hb & Hp)%parent_get _ [n IH]]; try done.
    + exists 0%nat. by econstructor.
    + exists (S n). apply (nearS p pk n s s' b x); try done. by apply (no_version_get p Hs s pk b Hb).
  - intros [n H]. induction H as [s b v Hb Hv|n s s' b x Hb Hv Hp _ IH].
    + constructor. apply version_get; eauto.
    + eapply NUp; [|apply parent_get; eauto|exact IH]. by apply (no_version_get p Hs s pk b Hb).
Qed.
Lemma near_det p pk n s x : near p pk n s x -> forall m y, near p pk m s y -> n = m /\ x = y.
Proof.
  induction 1 as [s b v Hb Hv|n s s' b x Hb Hv Hp _ IH]; intros m y Hy; inversion Hy; subst; simplify_eq; [done|].
  match goal with H : near p pk _ s' y |- _ => destruct (IH _ _ H) as [-> ->] end. done.
Qed.
Lemma nearest_det p pk s x y : sm_sorted p -> nearest p pk s x -> nearest p pk s y -> x = y.
Proof. intros Hs [n Hx]%nearest_near [m Hy]%nearest_near; try done. by eapply near_det. Qed.
Lemma near_del p pk n s s' b x : sm_sorted p -> sm_get s p = Some b -> ps_accounts b !! pk = None -> ps_parent b = Some s' ->
  near p pk n s' x -> near (sm_del s p) pk n s' x.
Proof.
  intros Hs Hb Hv Hp Hn. assert (near p pk (S n) s x) as Hsn by (by eapply nearS).
  assert (forall j t y, near p pk j t y -> (j <= n)%nat -> near (sm_del s p) pk j t y) as H.
  { induction 1 as [t b' v Hb' Hv'|j t t' b' y Hb' Hv' Hp' Hy IH]; intros Hj.
    - destruct (decide (t = s)) as [->|Hne]; [congruence|]. econstructor; [by rewrite sm_get_del_ne|done].
    - destruct (decide (t = s)) as [->|Hne].
      + exfalso. assert (near p pk (S j) s y) as Hy' by (by eapply nearS). destruct (near_det _ _ _ _ _ Hsn _ _ Hy'). lia.
      + eapply nearS; [by rewrite sm_get_del_ne|done|done|]. apply IH. lia. }
  by apply H.
Qed.
Lemma near_del_inv p pk n s t x : sm_sorted p -> near (sm_del s p) pk n t x -> near p pk n t x.
Proof.
  intros Hs. assert (forall t b, sm_get t (sm_del s p) = Some b -> sm_get t p = Some b) as Hg.
  { intros t' b H. apply sm_get_elem, sm_del_elem in H. by apply sm_elem_get. }
  induction 1 as [t b v Hb Hv|n t t' b y Hb Hv Hp _ IH]; [eapply near0|eapply nearS]; eauto.
Qed.

(** ** Finalizing *)
Lemma fin_walk_spec fuel p cur acc : sm_sorted p -> (length p < fuel)%nat ->
  let r := fin_walk fuel p cur acc in
  sm_sorted r.1 /\
  (forall pk x, r.2 !! pk = Some x <-> acc !! pk = Some x \/ acc !! pk = None /\ exists s n, cur = Some s /\ near p pk n s x) /\
  (forall k b, sm_get k r.1 = Some b -> sm_get k p = Some b) /\
  (forall k, sm_get k r.1 = None <-> sm_get k p = None \/ exists s, cur = Some s /\ on_chain p s k).
Proof.
  revert p cur acc. induction fuel as [|fuel IH]; intros p cur acc Hs Hf; [lia|]. simpl.
  destruct cur as [s|].
  2:{ split; [done|]. split; [|split; [done|]].
      - intros pk x. split; [auto|]. intros [?|(_ & s & n & ? & _)]; done.
      - intros k. split; [auto|]. intros [?|(s & ? & _)]; done. }
  destruct (sm_get s p) as [b|] eqn:Hb.
  2:{ split; [done|]. split; [|split; [done|]].
      - intros pk x. split; [auto|]. intros [?|(_ & s' & n & [= <-] & Hn)]; [done|]. inversion Hn; congruence.
      - intros k. split; [auto|]. intros [?|(s' & [= <-] & Hc)]; [done|]. inversion Hc as [? Hp|? ? ? Hp]; subst.
        + apply present_get in Hp as [? ?]; [congruence|done].
        + apply parent_get in Hp as (? & ? & _); [congruence|done]. }
  pose proof (sm_del_length _ _ _ Hb) as Hlen.
  destruct (IH (sm_del s p) (ps_parent b) (acc ∪ ((fun a => (a, s)) <$> ps_accounts b))) as (H1 & H2 & H3 & H4);
    [by apply sm_del_sorted|lia|]. split; [done|]. split; [|split].
  - intros pk x. rewrite H2, lookup_union_Some_raw, lookup_union_None, lookup_fmap, fmap_None. split.
    + intros [[Ha|[Ha Hx]]|((Ha & Hn) & s' & n & Hp & Hnr)]; [auto| |].
      * right. split; [done|]. destruct (ps_accounts b !! pk) as [v|] eqn:Hv; [|done]. simpl in Hx. injection Hx as <-.
        exists s, 0%nat. split; [done|]. by eapply near0.
      * right. split; [done|]. exists s, (S n). split; [done|]. apply (nearS p pk n s s' b x); try done. by eapply near_del_inv.
    + intros [Ha|(Ha & s' & n & [= <-] & Hnr)]; [auto|]. inversion Hnr; subst; simplify_eq.
      * left. right. split; [done|]. match goal with H : ps_accounts _ !! pk = Some _ |- _ => by rewrite H end.
      * right. split; [done|]. do 2 eexists. split; [done|]. by eapply near_del.
  - intros k b' Hk. apply H3 in Hk. apply sm_get_elem, sm_del_elem in Hk. by apply sm_elem_get.
  - intros k. rewrite H4. split.
    + intros [Hk|(s' & Hp & Hc)].
      * destruct (decide (k = s)) as [->|Hne].
        { right. exists s. split; [done|]. constructor. apply present_get; [done|]. by rewrite Hb. }
        left. by rewrite sm_get_del_ne in Hk.
      * right. exists s. split; [done|]. eapply CUp; [apply parent_get; eauto|].
        assert (forall x, x ∈ sm_del s p -> x ∈ p) as Hsub by apply sm_del_elem.
        clear -Hc Hsub. induction Hc as [t [b Ht]|t t' u (b & Ht & Hpp) _ IH]; [constructor; exists b; auto|].
        eapply CUp; [exists b; eauto|done].
    + intros [Hk|(s' & [= <-] & Hc)].
      * left. destruct (decide (k = s)) as [->|Hne]; [congruence|]. by rewrite sm_get_del_ne.
      * destruct (decide (k = s)) as [->|Hne]; [left; by apply sm_get_del|].
        (* a chain from [s] to [k]: take its part after the last visit of [s] *)
        assert (forall t, on_chain p t k -> (exists s', ps_parent b = Some s' /\ on_chain (sm_del s p) s' k) \/
                  (t <> s /\ on_chain (sm_del s p) t k)) as Hlast.
        { intros t Ht. clear Hc. induction Ht as [t Hpr|t t' u Hpr _ IHc].
          - right. split; [done|]. constructor. apply present_get; [by apply sm_del_sorted|]. rewrite sm_get_del_ne by done.
            by apply present_get.
          - destruct (IHc Hne) as [?|[Hne' Hc']]; [auto|]. destruct (decide (t = s)) as [->|Hts].
            + left. exists t'. split; [|done]. apply parent_get in Hpr as (? & ? & ?); [congruence|done].
            + right. split; [done|]. eapply CUp; [|exact Hc']. apply parent_get; [by apply sm_del_sorted|].
              rewrite sm_get_del_ne by done. by apply parent_get. }
        destruct (Hlast s Hc) as [(s' & Hp & Hc')|[? _]]; [|done]. right. eauto.
Qed.
Lemma finalize_spec p slot : sm_sorted p ->
  let r := pd_finalize p slot in
  sm_sorted r.1 /\ (forall pk x, r.2 !! pk = Some x <-> nearest p pk slot x) /\
  (forall k, sm_get k r.1 = sm_get k p \/ sm_get k r.1 = None) /\
  (forall k, sm_get k r.1 = None <-> sm_get k p = None \/ k <= slot \/ on_chain p slot k).
Proof.
  intros Hs. unfold pd_finalize. destruct (fin_walk_spec (S (length p)) p (Some slot) ∅ Hs) as (H1 & H2 & H3 & H4); [lia|].
  destruct (fin_walk (S (length p)) p (Some slot) ∅) as [p' m] eqn:Hw. simpl in *.
  split; [by apply pop_upto_sorted|]. split; [|split].
  - intros pk x. rewrite H2, lookup_empty, (nearest_near p pk slot x Hs). split.
    + intros [?|(_ & s & n & [= <-] & Hn)]; [done|]. eauto.
    + intros [n Hn]. right. eauto 6.
  - intros k. rewrite pop_upto_get by done. destruct (k <=? slot); [auto|].
    destruct (sm_get k p') as [b|] eqn:Hk; [|auto]. left. symmetry. by apply H3.
  - intros k. rewrite pop_upto_get by done. destruct (N.leb_spec k slot) as [Hle|Hgt].
    + split; auto.
    + rewrite H4. split; [intros [?|(s & [= <-] & ?)]; auto|]. intros [?|[?|?]]; [auto|lia|]. right. eauto.
Qed.

(** ** Reading *)
Lemma fill_length b s pks ret : length (fill b s pks ret) = length ret.
Proof. revert ret. induction pks as [|pk pks IH]; intros [|o ret]; simpl; try done. by rewrite IH. Qed.
Lemma fill_lookup b s pks ret i pk o : pks !! i = Some pk -> ret !! i = Some o ->
  fill b s pks ret !! i = Some match o with Some _ => o | None => (fun a => (a, s)) <$> ps_accounts b !! pk end.
Proof.
  revert ret i. induction pks as [|q pks IH]; intros [|o' ret] [|i]; simpl; try done.
  - intros [= ->] [= ->]. done.
  - apply IH.
Qed.
Lemma all_found_lookup ret i o : all_found ret = true -> ret !! i = Some o -> is_Some o.
Proof.
  unfold all_found. rewrite forallb_forall. intros H Hi. specialize (H o). destruct o; [eauto|].
  feed specialize H; [|done]. apply elem_of_list_In. by eapply elem_of_list_lookup_2.
Qed.
Definition found (p : pend) (pk : pubkey) (cur : option N) (g : option (pacct * N)) : Prop :=
  forall x, g = Some x <-> exists s, cur = Some s /\ nearest p pk s x.
Lemma conf_walk_spec fuel p pks cur ret r : sm_sorted p -> conf_walk fuel p pks cur ret = Some r ->
  forall i pk o, pks !! i = Some pk -> ret !! i = Some o ->
  exists g, r !! i = Some match o with Some _ => o | None => g end /\ (o = None -> found p pk cur g).
Proof.
  intros Hs. revert cur ret. induction fuel as [|fuel IH]; intros cur ret Hr i pk o Hi Ho; simpl in Hr; [done|].
  destruct cur as [s|].
  2:{ injection Hr as <-. exists None. split; [by destruct o|]. intros -> x. split; [done|]. by intros (s & ? & _). }
  destruct (sm_get s p) as [b|] eqn:Hb.
  2:{ injection Hr as <-. exists None. split; [by destruct o|]. intros -> x. split; [done|]. intros (s' & [= <-] & Hn).
      apply (nearest_near p pk s x Hs) in Hn as [n Hn]. inversion Hn; congruence. }
  pose proof (fill_lookup b s pks ret i pk o Hi Ho) as Hf.
  assert (forall v, ps_accounts b !! pk = Some v -> found p pk (Some s) (Some (v, s))) as Hhere.
  { intros v Hv x. split.
    - intros [= <-]. exists s. split; [done|]. constructor. apply version_get; [done|]. eauto.
    - intros (s' & [= <-] & Hn). f_equal. eapply nearest_det; [done| |exact Hn]. constructor. apply version_get; [done|]. eauto. }
  destruct (all_found (fill b s pks ret)) eqn:Haf.
  - injection Hr as <-. destruct o as [x|].
    + exists None. split; [done|]. by intros.
    + destruct (all_found_lookup _ _ _ Haf Hf) as [x Hx]. destruct (ps_accounts b !! pk) as [v|] eqn:Hv; [|done].
      exists (Some (v, s)). split; [done|]. intros _. by apply Hhere.
  - destruct (IH _ _ Hr i pk _ Hi Hf) as (g & Hg & Hfd). destruct o as [x|].
    + exists g. split; [done|]. by intros.
    + destruct (ps_accounts b !! pk) as [v|] eqn:Hv; simpl in *.
      * exists (Some (v, s)). split; [done|]. intros _. by apply Hhere.
      * exists g. split; [done|]. intros _ x. rewrite (Hfd eq_refl x). split.
        -- intros (s' & Hp & Hn). exists s. split; [done|]. eapply NUp; [|apply parent_get; eauto|exact Hn].
           by apply (no_version_get p Hs s pk b Hb).
        -- intros (s' & [= <-] & Hn). inversion Hn as [? v' Hver|? s2 ? Hno Hpar Hn2]; subst.
           ++ apply (version_get p Hs) in Hver as (? & ? & ?). congruence.
           ++ exists s2. split; [|done]. apply (parent_get p Hs) in Hpar as (? & ? & ?). congruence.
Qed.
Lemma proc_walk_spec fuel p pks conf l ret r : sm_sorted p ->
  StronglySorted (fun a b => b.1 < a.1) l -> (forall x, x ∈ l -> x ∈ p) -> (forall x, x ∈ p -> x.1 <= conf -> x ∈ l) ->
  proc_walk fuel p pks conf l ret = Some r ->
  forall i pk o, pks !! i = Some pk -> ret !! i = Some o ->
  exists g, r !! i = Some match o with Some _ => o | None => g end /\
    (o = None -> forall x, g = Some x <->
       newest_above l conf pk x \/ (forall s v, conf < s -> ~ version l s pk v) /\ nearest p pk conf x).
Proof.
  intros Hs. revert ret. induction l as [|[s b] l IH]; intros ret Hsort Hsub Hlow Hr i pk o Hi Ho; simpl in Hr.
  - injection Hr as <-. exists None. split; [by destruct o|]. intros -> x. split; [done|].
    intros [(_ & (b & Hb & _) & _)|[_ Hn]]; [by apply elem_of_nil in Hb|].
    apply (nearest_near p pk conf x Hs) in Hn as [n Hn].
    assert (exists b, sm_get conf p = Some b) as [b Hb] by (inversion Hn; eauto).
    apply sm_get_elem in Hb. apply Hlow in Hb; [|simpl; lia]. by apply elem_of_nil in Hb.
  - apply StronglySorted_inv in Hsort as [Hsort Hall]. rewrite Forall_forall in Hall.
    destruct (N.ltb_spec conf s) as [Hlt|Hge].
    2:{ destruct (conf_walk_spec _ _ _ _ _ _ Hs Hr i pk o Hi Ho) as (g & Hg & Hfd). exists g. split; [done|]. intros He x.
        assert (forall s' v, conf < s' -> ~ version ((s, b) :: l) s' pk v) as Hno.
        { intros s' v Hs' (b' & Hb' & _). apply elem_of_cons in Hb' as [[= -> ->]|Hb']; [lia|]. apply Hall in Hb'. simpl in Hb'. lia. }
        rewrite (Hfd He x). split.
        - intros (s' & [= <-] & Hn). auto.
        - intros [(Hc & Hv & _)|[_ Hn]]; [exfalso; by eapply Hno|]. eauto. }
    pose proof (fill_lookup b s pks ret i pk o Hi Ho) as Hf.
    assert (forall v, ps_accounts b !! pk = Some v -> forall x, Some (v, s) = Some x <->
       newest_above ((s, b) :: l) conf pk x \/ (forall s1 v, conf < s1 -> ~ version ((s, b) :: l) s1 pk v) /\ nearest p pk conf x) as Hhere.
    { intros v Hv x. assert (version ((s, b) :: l) s pk v) as Hver by (exists b; split; [left|done]). split.
      - intros [= <-]. left. split; [done|]. split; [done|]. intros s' v' _ (b' & Hb' & _).
        apply elem_of_cons in Hb' as [[= -> ->]|Hb']; [simpl; lia|]. apply Hall in Hb'. simpl in *. lia.
      - intros [(Hc & (b' & Hb' & Hv') & Hmax)|[Hno _]]; [|exfalso; by eapply Hno].
        specialize (Hmax s v Hlt Hver). apply elem_of_cons in Hb' as [He|Hb'].
        + injection He as He ->. destruct x as [v' s']; simpl in *. subst. congruence.
        + apply Hall in Hb'. simpl in Hb'. lia. }
    destruct (all_found (fill b s pks ret)) eqn:Haf.
    + injection Hr as <-. destruct o as [x|]; [exists None; split; [done|]; by intros|].
      destruct (all_found_lookup _ _ _ Haf Hf) as [x Hx]. destruct (ps_accounts b !! pk) as [v|] eqn:Hv; [|done].
      exists (Some (v, s)). split; [done|]. intros _. exact (Hhere v eq_refl).
    + assert (forall x : N * pslot, x ∈ l -> x ∈ p) as Hsub' by (intros x Hx; apply Hsub; by right).
      assert (forall x : N * pslot, x ∈ p -> x.1 <= conf -> x ∈ l) as Hlow'.
      { intros x Hx Hle. specialize (Hlow x Hx Hle). apply elem_of_cons in Hlow as [->|?]; [simpl in Hle; lia|done]. }
      destruct (IH _ Hsort Hsub' Hlow' Hr i pk _ Hi Hf) as (g & Hg & Hfd). destruct o as [x|]; [exists g; split; [done|]; by intros|].
      destruct (ps_accounts b !! pk) as [v|] eqn:Hv; simpl in *.
      * exists (Some (v, s)). split; [done|]. intros _. exact (Hhere v eq_refl).
      * exists g. split; [done|]. intros _ x. rewrite (Hfd eq_refl x).
        assert (forall s' v, version ((s, b) :: l) s' pk v <-> version l s' pk v) as Hv'.
        { intros s' v. unfold version. split; intros (b' & Hb' & Hbv).
          - apply elem_of_cons in Hb' as [[= -> ->]|Hb']; [congruence|eauto].
          - exists b'. split; [by right|done]. }
        unfold newest_above. setoid_rewrite Hv'. done.
Qed.
Lemma sorted_reverse (p : pend) : sm_sorted p -> StronglySorted (fun a b => b.1 < a.1) (reverse p).
Proof.
  intros Hs. induction p as [|[k b] p IH]; [constructor|]. apply sm_sorted_cons in Hs as [Hs Hlt]. rewrite reverse_cons.
  specialize (IH Hs). assert (forall x, x ∈ reverse p -> k < x.1) as Hk.
  { intros [k' b'] Hx. rewrite elem_of_reverse in Hx. simpl. exact (Hlt _ _ Hx). }
  clear -IH Hk. induction (reverse p) as [|x l IHl]; simpl; [repeat constructor|].
  apply StronglySorted_inv in IH as [Hl Hf]. constructor.
  - apply IHl; [done|]. intros y Hy. apply Hk. by right.
  - apply Forall_app. split; [done|]. constructor; [|constructor]. simpl. apply Hk. left.
Qed.
Lemma version_reverse p s pk v : version (reverse p) s pk v <-> version p s pk v.
Proof. unfold version. by setoid_rewrite elem_of_reverse. Qed.
Lemma newest_reverse p conf pk x : newest_above (reverse p) conf pk x <-> newest_above p conf pk x.
Proof. unfold newest_above. by setoid_rewrite version_reverse. Qed.

(** ** Termination *)
Lemma conf_walk_closed fuel p pks (V : list N) cur ret : all_found ret = false ->
  (forall s, s ∈ V -> exists b, sm_get s p = Some b /\ fill b s pks ret = ret /\ exists s', ps_parent b = Some s' /\ s' ∈ V) ->
  cur ∈ V -> conf_walk fuel p pks (Some cur) ret = None.
Proof.
  intros Hnf HV. revert cur. induction fuel as [|fuel IH]; intros cur Hc; simpl; [done|].
  destruct (HV _ Hc) as (b & -> & -> & s' & -> & Hs'). rewrite Hnf. by apply IH.
Qed.
Lemma fill_fix b s pks ret : fill b s pks ret = ret <->
  forall i pk, pks !! i = Some pk -> ret !! i = Some None -> ps_accounts b !! pk = None.
Proof.
  split.
  - intros He i pk Hi Ho. pose proof (fill_lookup b s pks ret i pk None Hi Ho) as Hf. rewrite He, Ho in Hf.
    by destruct (ps_accounts b !! pk).
  - intros H. apply list_eq. intros i. destruct (ret !! i) as [o|] eqn:Ho.
    + destruct (pks !! i) as [pk|] eqn:Hi.
      * rewrite (fill_lookup b s pks ret i pk o Hi Ho). destruct o as [x|]; [done|]. by rewrite (H i pk Hi Ho).
      * clear H. revert pks i Hi Ho. induction ret as [|x ret IH]; intros [|q pks] [|i]; simpl; try done. apply IH.
    + apply lookup_ge_None. rewrite fill_length. by apply lookup_ge_None.
Qed.
Lemma fill_none b s pks ret i : fill b s pks ret !! i = Some None -> ret !! i = Some None.
Proof.
  revert ret i. induction pks as [|q pks IH]; intros [|o ret] [|i]; simpl; try done.
  - by destruct o.
  - apply IH.
Qed.
Lemma fill_fill b s b' s' pks ret : fill b s pks ret = ret -> fill b s pks (fill b' s' pks ret) = fill b' s' pks ret.
Proof. rewrite !fill_fix. intros H i pk Hi Ho. apply (H i pk Hi). by eapply fill_none. Qed.
Lemma fill_idem b s pks ret : fill b s pks (fill b s pks ret) = fill b s pks ret.
Proof.
  apply fill_fix. intros i pk Hi Ho. pose proof (fill_none _ _ _ _ _ Ho) as Hr. rewrite (fill_lookup b s pks ret i pk None Hi Hr) in Ho.
  by destruct (ps_accounts b !! pk).
Qed.
Lemma conf_walk_mono fuel fuel' p pks cur ret r : conf_walk fuel p pks cur ret = Some r -> (fuel <= fuel')%nat ->
  conf_walk fuel' p pks cur ret = Some r.
Proof.
  revert fuel' cur ret. induction fuel as [|fuel IH]; intros fuel' cur ret; simpl; [done|]. intros H Hle.
  destruct fuel' as [|fuel']; [lia|]. simpl. destruct cur as [s|]; [|done]. destruct (sm_get s p) as [b|]; [|done].
  destruct (all_found _); [done|]. apply IH; [done|lia].
Qed.
Lemma conf_walk_stuck n p pks cur ret (V : list N) : NoDup V -> (forall s, s ∈ V -> is_Some (sm_get s p)) ->
  (V <> [] -> all_found ret = false) ->
  (forall s, s ∈ V -> exists b, sm_get s p = Some b /\ fill b s pks ret = ret /\ exists s', ps_parent b = Some s' /\ (s' ∈ V \/ cur = Some s')) ->
  (length p < n + length V)%nat -> conf_walk n p pks cur ret = None -> forall fuel, conf_walk fuel p pks cur ret = None.
Proof.
  revert cur ret V. induction n as [|n IH]; intros cur ret V Hnd Hpr Hnf HV Hn Hw fuel.
  - exfalso. assert (length V <= length (p.*1))%nat; [|rewrite fmap_length in *; lia].
    apply NoDup_incl_length; [by apply NoDup_ListNoDup|]. intros s Hs. apply elem_of_list_In in Hs. apply elem_of_list_In.
    destruct (Hpr _ Hs) as [b Hb]. apply sm_get_elem in Hb. apply elem_of_list_fmap. by exists (s, b).
  - simpl in Hw. destruct cur as [s|]; [|done]. destruct (sm_get s p) as [b|] eqn:Hb; [|done].
    destruct (all_found (fill b s pks ret)) eqn:Haf; [done|].
    destruct (decide (s ∈ V)) as [Hin|Hout].
    + apply (conf_walk_closed fuel p pks V); [apply Hnf; by intros ->; apply elem_of_nil in Hin| |done].
      intros t Ht. destruct (HV t Ht) as (b' & Hb' & Hf & s' & Hp & Hc). exists b'. split; [done|]. split; [done|].
      exists s'. split; [done|]. destruct Hc as [?|[= ->]]; done.
    + destruct fuel as [|fuel]; [done|]. simpl. rewrite Hb, Haf. apply (IH _ _ (s :: V)); try done.
      * by constructor.
      * intros t [->|Ht]%elem_of_cons; [eauto|by apply Hpr].
      * intros t [->|Ht]%elem_of_cons.
        -- exists b. split; [done|]. split; [apply fill_idem|]. destruct (ps_parent b) as [s'|] eqn:Hpb; [eauto 6|].
           destruct n; [|done]. exfalso.
           assert (length (s :: V) <= length (p.*1))%nat; [|rewrite fmap_length in *; simpl in *; lia].
           apply NoDup_incl_length; [apply NoDup_ListNoDup; by constructor|]. intros t Ht. apply elem_of_list_In in Ht. apply elem_of_list_In.
           assert (is_Some (sm_get t p)) as [b' Hb'] by (apply elem_of_cons in Ht as [->|Ht]; eauto).
           apply sm_get_elem in Hb'. apply elem_of_list_fmap. by exists (t, b').
        -- destruct (HV t Ht) as (b' & Hb' & Hf & s' & Hp & Hc). exists b'. split; [done|]. split; [by apply fill_fill|].
           exists s'. split; [done|]. left. destruct Hc as [?|[= ->]]; [by right|by left].
      * simpl. lia.
Qed.
Lemma conf_walk_fuel p pks cur ret : conf_walk (S (length p)) p pks cur ret = None -> forall fuel, conf_walk fuel p pks cur ret = None.
Proof.
  apply (conf_walk_stuck _ p pks cur ret []); try done; try (by constructor).
  - intros s Hs. by apply elem_of_nil in Hs.
  - intros s Hs. by apply elem_of_nil in Hs.
  - simpl. lia.
Qed.
Lemma proc_walk_fuel p pks conf l ret : proc_walk (S (length p)) p pks conf l ret = None -> forall fuel, proc_walk fuel p pks conf l ret = None.
Proof.
  revert ret. induction l as [|[s b] l IH]; intros ret H fuel; simpl in *; [done|]. destruct (conf <? s).
  - destruct (all_found _); [done|]. by apply IH.
  - by apply conf_walk_fuel.
Qed.
(** A walk that does not end runs into a slot that is its own ancestor. *)
Lemma ancestor_trans p s t u : ancestor p s t -> ancestor p t u -> ancestor p s u.
Proof. induction 1; intros; [by eapply AMore|]. eapply AMore; eauto. Qed.
Lemma conf_walk_cycle n p pks cur ret (V : list N) : sm_sorted p -> NoDup V -> (forall s, s ∈ V -> is_Some (sm_get s p)) ->
  (forall s t, s ∈ V -> cur = Some t -> ancestor p s t) ->
  (length p < n + length V)%nat -> conf_walk n p pks cur ret = None -> exists s, ancestor p s s.
Proof.
  intros Hsd. revert cur ret V. induction n as [|n IH]; intros cur ret V Hnd Hpr HV Hn Hw.
  - exfalso. assert (length V <= length (p.*1))%nat; [|rewrite fmap_length in *; lia].
    apply NoDup_incl_length; [by apply NoDup_ListNoDup|]. intros s Hs. apply elem_of_list_In in Hs. apply elem_of_list_In.
    destruct (Hpr _ Hs) as [b Hb]. apply sm_get_elem in Hb. apply elem_of_list_fmap. by exists (s, b).
  - simpl in Hw. destruct cur as [s|]; [|done]. destruct (sm_get s p) as [b|] eqn:Hb; [|done].
    destruct (all_found (fill b s pks ret)) eqn:Haf; [done|].
    destruct (decide (s ∈ V)) as [Hin|Hout]; [exists s; by apply HV|].
    apply (IH _ _ (s :: V)) in Hw; try done.
    + by constructor.
    + intros t [->|Ht]%elem_of_cons; [eauto|by apply Hpr].
    + intros t u Ht Hu. assert (ancestor p s u) by (apply AOne; apply parent_get; eauto).
      apply elem_of_cons in Ht as [->|Ht]; [done|]. eapply ancestor_trans; [by apply HV|done].
    + simpl. lia.
Qed.
Lemma conf_walk_ends p pks cur ret : sm_sorted p -> acyclic p -> is_Some (conf_walk (S (length p)) p pks cur ret).
Proof.
  intros Hs Ha. destruct (conf_walk _ _ _ _ _) eqn:Hw; [eauto|]. exfalso.
  assert (exists s, ancestor p s s) as [s Hc]; [|by apply (Ha s)].
  apply (conf_walk_cycle (S (length p)) p pks cur ret []); try done.
  - by constructor.
  - intros s H. by apply elem_of_nil in H.
  - intros s t H. by apply elem_of_nil in H.
  - simpl. lia.
Qed.
Lemma proc_walk_ends p pks conf l ret : sm_sorted p -> acyclic p -> is_Some (proc_walk (S (length p)) p pks conf l ret).
Proof.
  intros Hs Ha. revert ret. induction l as [|[s b] l IH]; intros ret; simpl; [eauto|].
  destruct (conf <? s); [destruct (all_found _); eauto|]. exact (conf_walk_ends p pks (Some conf) ret Hs Ha).
Qed.
Lemma before_acyclic p : parents_before p -> acyclic p.
Proof.
  intros Hp. assert (forall s t, ancestor p s t -> t < s) as H.
  { induction 1 as [s t Hpt|s t u Hpt _ IH]; apply Hp in Hpt; lia. }
  intros s Hs. apply H in Hs. lia.
Qed.

(** ** The nearest version is the newest one of the chain *)
Lemma chain_version_nearest p pk s s' v : sm_sorted p -> on_chain p s s' -> version p s' pk v -> exists x, nearest p pk s x.
Proof.
  intros Hs. induction 1 as [s Hp|s s2 t Hp _ IH]; intros Hv; [eexists; by constructor|].
  pose proof Hp as (b & Hb & _)%parent_get; [|done].
  destruct (ps_accounts b !! pk) as [v'|] eqn:Hv'.
  - eexists. apply (NHere p pk s v'). apply version_get; eauto.
  - destruct (IH Hv) as [x Hx]. exists x. eapply NUp; [|exact Hp|exact Hx]. by apply (no_version_get p Hs s pk b Hb).
Qed.
Lemma nearest_chain p pk s x : nearest p pk s x -> on_chain p s x.2 /\ version p x.2 pk x.1.
Proof.
  induction 1 as [s v (b & Hb & Hv)|s s' x _ Hp _ [IH1 IH2]].
  - simpl. split; [constructor; by exists b|by exists b].
  - split; [by eapply CUp|done].
Qed.
Lemma chain_le p s t : parents_before p -> on_chain p s t -> t <= s.
Proof. intros Hp. induction 1 as [s _|s s' t H _ IH]; [lia|]. apply Hp in H. lia. Qed.
Lemma nearest_newest p pk s x : sm_sorted p -> parents_before p -> nearest p pk s x ->
  forall s' v', on_chain p s s' -> version p s' pk v' -> s' <= x.2.
Proof.
  intros Hs Hp. induction 1 as [s v Hv|s s1 x Hno Hpar _ IH]; intros s' v' Hc Hv'.
  - simpl. by apply (chain_le p s s').
  - inversion Hc as [|? s2 ? Hp2 Hc2]; subst; [by apply Hno in Hv'|].
    apply (IH s' v'); [|done]. apply (parent_get p Hs) in Hpar as (b & Hb & Hb'). apply (parent_get p Hs) in Hp2 as (b2 & Hb2 & Hb2').
    congruence.
Qed.

(** ** Histories *)
Lemma pd_insert_sorted p pk a wv s : sm_sorted p -> sm_sorted (pd_insert p pk a wv s).1.
Proof. intros Hs. unfold pd_insert. repeat case_match; simpl; try done; by apply sm_put_sorted. Qed.
Lemma pd_slot_info_sorted p si : sm_sorted p -> sm_sorted (pd_slot_info p si).
Proof. intros Hs. unfold pd_slot_info. case_match; by apply sm_put_sorted. Qed.
Lemma pd_for_slot_pend p si mints p' l : pd_for_slot p si mints = Done (p', l) ->
  p' = if sm_get (si_slot si) p then p else pd_slot_info p si.
Proof.
  unfold pd_for_slot. destruct (sm_get (si_slot si) p); [|by intros [= <- _]].
  destruct (to_accts _ _); simpl; [|done]. by intros [= <- _].
Qed.

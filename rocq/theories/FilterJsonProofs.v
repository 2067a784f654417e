(** Reading what describes a filter gives the filter; what is written describes it. *)
From Verif Require Import Base DataModel FilterModel AvecModel AvecSpec Base58Model Base58Proofs JsonModel JsonSpec JsonProofs FilterJsonModel FilterJsonSpec.
#[local] Open Scope N_scope.
From Coq Require String.
Import String.StringSyntax.
#[local] Delimit Scope string_scope with string.

Lemma jget_cons k k' v es : jget k (JObj ((k', v) :: es)) = if decide (k' = k) then Some v else jget k (JObj es).
Proof.
  unfold jget. cbn [list_find]. destruct (decide ((k', v).1 = k)) as [H|H]; destruct (decide (k' = k)) as [H'|H']; try done. destruct (list_find _ es) as [[n e]|]; done.
Qed.
Lemma has_spec k v es : jget (txt k) (JObj es) = Some v <-> has k v es.
Proof.
  unfold has. induction es as [|[k' v'] es IH].
  { split; [done|]. intros (l1 & l2 & H & _). by destruct l1. }
  rewrite jget_cons. destruct (decide (k' = txt k)) as [->|Hne].
  - split.
    + intros [= <-]. exists [], es. split; [done|]. apply not_elem_of_nil.
    + intros ([|e l1] & l2 & H & Hn); injection H; [congruence|]. intros -> <-. exfalso. apply Hn. left.
  - rewrite IH. split.
    + intros (l1 & l2 & -> & Hn). exists ((k', v') :: l1), l2. split; [done|]. rewrite fmap_cons. by apply not_elem_of_cons.
    + intros ([|e l1] & l2 & H & Hn); injection H; [congruence|]. intros -> <-. rewrite fmap_cons in Hn. apply not_elem_of_cons in Hn as [_ Hn]. by exists l1, l2.
Qed.
Lemma absent_spec k es : jget (txt k) (JObj es) = None <-> absent k es.
Proof.
  unfold absent. induction es as [|[k' v'] es IH]; [split; [intros _; apply not_elem_of_nil|done]|].
  rewrite fmap_cons, not_elem_of_cons, jget_cons, <- IH. destruct (decide (k' = txt k)) as [->|Hne]; simpl; split; try done; intros [? ?]; done.
Qed.
Lemma key_spec v pk : de_key v = Done pk <-> key_json v pk.
Proof.
  unfold key_json. destruct v; simpl; try (split; [done|]; by intros [? _]). split.
  - destruct (pk_parse s) as [x|] eqn:E; [|done]. intros [= <-]. apply pk_parse_text in E as [-> ?]. done.
  - intros [[= ->] H]. by rewrite pk_round.
Qed.
Lemma keys_spec vs l : de_keys vs = Done l <-> Forall2 key_json vs l.
Proof.
  revert l. induction vs as [|v vs IH]; intros l; simpl.
  - split; [intros [= <-]; constructor|]. by intros ->%Forall2_nil_inv_l.
  - split.
    + destruct (de_key v) as [pk|] eqn:E; [|done]. simpl. destruct (de_keys vs) as [l'|] eqn:E'; [|done]. intros [= <-]. constructor; [by apply key_spec|by apply IH].
    + intros (pk & l' & Hk & Hl & ->)%Forall2_cons_inv_l. apply key_spec in Hk. apply IH in Hl. by rewrite Hk, Hl.
Qed.
Lemma u8_spec v x : de_u8 v = Some x <-> v = JNat (b2n x).
Proof.
  destruct v; simpl; try (split; done). destruct (N.ltb_spec n 256) as [H|H].
  - split; [intros [= <-]; by rewrite b2n_n2b, N.mod_small|]. intros [= ->]. by rewrite n2b_b2n.
  - split; [done|]. intros [= ->]. pose proof (b2n_lt x). lia.
Qed.
Lemma mapM_spec {A B} (g : A -> option B) (R : A -> B -> Prop) : (forall a b, g a = Some b <-> R a b) -> forall l l', mapM g l = Some l' <-> Forall2 R l l'.
Proof.
  intros H l l'. rewrite mapM_Some. split; intros F.
  - eapply Forall2_impl; [exact F|]. intros a b. apply H.
  - eapply Forall2_impl; [exact F|]. intros a b. apply H.
Qed.
Lemma data_spec v d : de_memcmp_data v = Some d <-> data_json v d.
Proof.
  split.
  - unfold de_memcmp_data. destruct v as [| | | | | |[|[k x] [|]]]; try done.
    case_bool_decide as E1; [subst k|case_bool_decide as E2; [subst k|case_bool_decide as E3; [subst k|done]]].
    + destruct x as [| | | | |l|]; try done. destruct (mapM de_u8 l) as [b|] eqn:E; [|done]. intros [= <-]. apply (dj_bytes l b). by apply (mapM_spec de_u8 _ u8_spec).
    + destruct x; try done. intros [= <-]. constructor.
    + destruct x; try done. intros [= <-]. constructor.
  - destruct 1 as [vs b Hb| |]; [|done|done]. apply (mapM_spec de_u8 _ u8_spec) in Hb. simpl. by rewrite Hb.
Qed.
Lemma cond_spec v c : de_cond v = Some c <-> condition_json v c.
Proof.
  split.
  - unfold de_cond. destruct v as [| | | | | |[|[k x] [|]]]; try done.
    case_bool_decide as E1; [subst k|case_bool_decide as E2; [subst k|done]].
    + destruct x; try done. intros [= <-]. constructor.
    + destruct (de_memcmp x) as [m|] eqn:E; [|done]. intros [= <-]. unfold de_memcmp in E. destruct x as [| | | | |[|o [|d [|]]]|es]; try done.
      * destruct o; try done. simpl in E. destruct (de_memcmp_data d) as [d'|] eqn:Ed; [|done]. injection E as <-. constructor. by apply data_spec.
      * destruct (jget k_offset (JObj es)) as [o|] eqn:Eo; [|done]. apply (has_spec "offset"%string) in Eo. cbn [mbind option_bind] in E. destruct o; try done. cbn [de_u64] in E.
        destruct (jget k_data (JObj es)) as [d|] eqn:Ed; [|done]. apply (has_spec "data"%string) in Ed. cbn [mbind option_bind] in E. destruct (de_memcmp_data d) as [d'|] eqn:Ed'; [|done]. apply data_spec in Ed'.
        injection E as <-. by eapply cj_memcmp.
  - destruct 1 as [n|es o v d Ho Hd Hv|o v d Hv].
    + done.
    + apply has_spec in Ho, Hd. apply data_spec in Hv. change (jget k_offset (JObj es) = Some (JNat o)) in Ho. change (jget k_data (JObj es) = Some v) in Hd.
      unfold de_cond. rewrite bool_decide_eq_false_2 by done. rewrite bool_decide_eq_true_2 by done. unfold de_memcmp. rewrite Ho, Hd. cbn [mbind option_bind de_u64]. rewrite Hv. done.
    + apply data_spec in Hv. simpl. by rewrite Hv.
Qed.
Lemma filters_spec v o : de_filters v = Some o <-> match o with None => v = JNull | Some cs => exists vs, v = JArr vs /\ Forall2 condition_json vs cs end.
Proof.
  destruct v as [| | | | |l|]; simpl; try (split; [done|]; destruct o; [by intros (? & ? & _)|done]).
  - split; [by intros [= <-]|]. destruct o; [by intros (? & ? & _)|done].
  - split.
    + destruct (mapM de_cond l) as [cs|] eqn:E; [|done]. intros [= <-]. exists l. split; [done|]. by apply (mapM_spec de_cond _ cond_spec).
    + destruct o as [cs|]; [|done]. intros (vs & [= ->] & H). apply (mapM_spec de_cond _ cond_spec) in H. by rewrite H.
Qed.
(** The second and the third part. *)
Lemma parts_spec es a f : (program ← match jget k_program_id (JObj es) with Some p => x ← de_key p; Done (Some x) | None => Done None end;
    filters ← match jget k_filters (JObj es) with Some fs => unwrap (de_filters fs) | None => Done None end;
    Done (AFilter a program filters)) = Done f <->
  f_accounts f = a /\
  match f_program f with None => absent "programId"%string es | Some p => exists v, has "programId"%string v es /\ key_json v p end /\
  match f_filters f with None => absent "filters"%string es \/ has "filters"%string JNull es | Some cs => exists vs, has "filters"%string (JArr vs) es /\ Forall2 condition_json vs cs end.
Proof.
  assert (k_program_id = txt "programId"%string /\ k_filters = txt "filters"%string) as [-> ->] by done. split.
  - intros H.
    assert (exists p, (match jget (txt "programId"%string) (JObj es) with Some p => x ← de_key p; Done (Some x) | None => Done None end) = Done p /\
                      match p with None => absent "programId"%string es | Some p => exists v, has "programId"%string v es /\ key_json v p end) as (p & Hp & Hps).
    { destruct (jget (txt "programId"%string) (JObj es)) as [v|] eqn:E; [|exists None; split; [done|by apply absent_spec]].
      destruct (de_key v) as [pk|] eqn:Ek; [|done]. exists (Some pk). split; [done|]. exists v. split; [by apply has_spec|by apply key_spec]. }
    rewrite Hp in H. cbn [mbind res_bind] in H.
    assert (exists o, (match jget (txt "filters"%string) (JObj es) with Some fs => unwrap (de_filters fs) | None => Done None end) = Done o /\
                      match o with None => absent "filters"%string es \/ has "filters"%string JNull es | Some cs => exists vs, has "filters"%string (JArr vs) es /\ Forall2 condition_json vs cs end) as (o & Ho & Hos).
    { destruct (jget (txt "filters"%string) (JObj es)) as [v|] eqn:E; [|exists None; split; [done|left; by apply absent_spec]].
      destruct (de_filters v) as [o|] eqn:Ef; [|done]. exists o. split; [done|]. apply has_spec in E. apply filters_spec in Ef. destruct o as [cs|].
      - destruct Ef as (vs & -> & Hc). by exists vs.
      - subst v. by right. }
    rewrite Ho in H. injection H as <-. done.
  - intros (<- & Hp & Hf).
    replace (match jget (txt "programId"%string) (JObj es) with Some p => x ← de_key p; Done (Some x) | None => Done None end) with (Done (f_program f)).
    2:{ destruct (f_program f) as [p|].
        - destruct Hp as (v & Hv%has_spec & Hk%key_spec). by rewrite Hv, Hk.
        - apply absent_spec in Hp. by rewrite Hp. }
    replace (match jget (txt "filters"%string) (JObj es) with Some fs => unwrap (de_filters fs) | None => Done None end) with (Done (f_filters f)).
    2:{ destruct (f_filters f) as [cs|].
        - destruct Hf as (vs & Hv%has_spec & Hc). rewrite Hv. replace (de_filters (JArr vs)) with (Some (Some cs)); [done|]. symmetry. apply filters_spec. by exists vs.
        - destruct Hf as [Hf%absent_spec|Hf%has_spec]; by rewrite Hf. }
    simpl. by destruct f.
Qed.
Lemma jget_filter k es : txt k <> txt "accounts"%string -> jget (txt k) (JObj (filter (fun e => e.1 <> txt "accounts"%string) es)) = jget (txt k) (JObj es).
Proof.
  intros Hk. induction es as [|[k' v'] es IH]; [done|]. rewrite filter_cons. destruct (decide ((k', v').1 <> txt "accounts"%string)) as [Hd|Hd].
  - rewrite !jget_cons. by rewrite IH.
  - rewrite IH, jget_cons. apply dec_stable in Hd. simpl in Hd. subst k'. by rewrite decide_False by congruence.
Qed.
Lemma filtered_absent es : absent "accounts"%string (filter (fun e => e.1 <> txt "accounts"%string) es).
Proof. unfold absent. intros (e & He & [H _]%elem_of_list_filter)%elem_of_list_fmap. by apply H. Qed.
Lemma passes_spec v f : filter_of_json v = Done f <-> passes v f.
Proof.
  assert (match v with JObj _ => True | _ => False end \/ ~ match v with JObj _ => True | _ => False end) as [Ho|Ho] by (destruct v; auto).
  2:{ assert (~ is_object v) as Hno by (intros (es & ->); done).
      assert (filter_of_json v = Done (AFilter [] None None)) as -> by (by destruct v). split.
      - intros [= <-]. right. by left.
      - intros [(es & -> & _)|[[_ ->]|(es & x & -> & _)]]; done. }
  destruct v as [| | | | | |es]; try done. clear Ho. unfold filter_of_json, passes. assert (k_accounts = txt "accounts"%string) as -> by done.
  assert (is_object (JObj es)) as Hobj by (by eexists).
  destruct (jget (txt "accounts"%string) (JObj es)) as [a|] eqn:Ea.
  - assert (match a with JArr _ => True | _ => False end \/ ~ match a with JArr _ => True | _ => False end) as [Harr|Harr] by (destruct a; auto).
    + destruct a as [| | | | |vs|]; try done. split.
      * destruct (de_keys vs) as [l|] eqn:Ek; [|done]. cbn [mbind res_bind]. intros (<- & H)%parts_spec. left. exists es. split; [done|]. split; [|done].
        right. exists vs. split; [by apply has_spec|by apply keys_spec].
      * intros [(es' & [= <-] & Ha & H)|[[? _]|(es' & x & [= <-] & Hx & Hn & _)]]; [|done|].
        -- destruct Ha as [[_ Ha%absent_spec]|(vs' & Ha%has_spec & Hk)]; [by rewrite Ea in Ha|]. rewrite Ea in Ha. injection Ha as <-. apply keys_spec in Hk. rewrite Hk.
           cbn [mbind res_bind]. apply parts_spec. done.
        -- apply has_spec in Hx. rewrite Ea in Hx. injection Hx as <-. exfalso. apply Hn. by eexists.
    + replace (match a with JArr l => de_keys l | _ => Done [] end) with (Done ([] : list pubkey)) by (by destruct a).
      assert (~ is_array a) as Hna by (intros (vs & ->); done).
      replace (match Some a with Some (JArr l) => de_keys l | _ => Done [] end) with (Done ([] : list pubkey)) by (by destruct a).
      cbn [mbind res_bind]. rewrite parts_spec.
      assert (forall k, txt k <> txt "accounts"%string -> (absent k (filter (fun e => e.1 <> txt "accounts"%string) es) <-> absent k es) /\ forall v, has k v (filter (fun e => e.1 <> txt "accounts"%string) es) <-> has k v es) as Hk.
      { intros k Hk. split; [|intros v]; rewrite <- ?absent_spec, <- ?has_spec, jget_filter by done; done. }
      destruct (Hk "programId"%string ltac:(done)) as [P1 P2]. destruct (Hk "filters"%string ltac:(done)) as [F1 F2]. split.
      * intros (Hf & Hp & Hs). right. right. exists es, a. split; [done|]. split; [by apply has_spec|]. split; [done|]. split; [done|]. eexists. split; [done|].
        split; [left; split; [done|apply filtered_absent]|]. split; [destruct (f_program f); [by setoid_rewrite P2|by rewrite P1]|destruct (f_filters f); [by setoid_rewrite F2|by rewrite F1, F2]].
      * intros [(es' & [= <-] & Ha & H)|[[? _]|(es' & x & [= <-] & Hx & Hn & Hf & (es'' & [= <-] & _ & H))]]; [|done|].
        -- destruct Ha as [[_ Ha%absent_spec]|(vs' & Ha%has_spec & Hkk)]; [by rewrite Ea in Ha|]. rewrite Ea in Ha. injection Ha as ->. by exfalso.
        -- split; [done|]. destruct H as [H1 H2]. split; [destruct (f_program f); [by setoid_rewrite P2 in H1|by rewrite P1 in H1]|destruct (f_filters f); [by setoid_rewrite F2 in H2|by rewrite F1, F2 in H2]].
  - cbn [mbind res_bind]. rewrite parts_spec. split.
    + intros (Hf & H). left. exists es. split; [done|]. split; [left; split; [done|by apply absent_spec]|done].
    + intros [(es' & [= <-] & Ha & H)|[[? _]|(es' & x & [= <-] & Hx & _)]]; [|done|].
      * destruct Ha as [[Hf _]|(vs' & Ha%has_spec & Hkk)]; [done|]. by rewrite Ea in Ha.
      * apply has_spec in Hx. by rewrite Ea in Hx.
Qed.
Lemma described v f : describes v f -> filter_of_json v = Done f.
Proof. intros H. apply passes_spec. by left. Qed.
Lemma tail_white w : ws w -> tail_ok w.
Proof.
  intros [|c w' Hc _]; [done|]. unfold white in Hc. simpl. unfold is_digit. split; [|lia].
  destruct (N.leb_spec 48 (b2n c)), (N.leb_spec (b2n c) 57); try done; lia.
Qed.
Lemma reads_filter v t f w w' : describes v f -> json_text v t -> (nesting v <= 127)%nat -> ws w -> ws w' -> filter_from_str (w ++ t ++ w') = Done (Some f).
Proof.
  intros Hd Ht Hn Hw Hw'. unfold filter_from_str, read_json. rewrite value_skip by done. rewrite (read_text v t 127 w') by (done || by apply tail_white).
  rewrite (described v f Hd). simpl. by rewrite skip_ws_all.
Qed.
(** Lists. *)
Lemma filters_end f w r : ws w -> read_filters (S f) false (w ++ str [93] ++ r) = Done (Some ([], r)).
Proof. intros Hw. cbn [read_filters]. change (w ++ str [93] ++ r) with (w ++ n2b 93 :: r). rewrite (ws_close w 93 r) by done. done. Qed.
Lemma filter_step v t w n r f l r' : starts t -> ws w -> read_value 126 (t ++ r) = Some (v, r) -> filter_of_json v = Done f ->
  read_filters n false r = Done (Some (l, r')) ->
  read_filters (S n) true (w ++ t ++ r) = Done (Some (f :: l, r')) /\ read_filters (S n) false (str [44] ++ w ++ t ++ r) = Done (Some (f :: l, r')).
Proof.
  intros (c & t' & -> & Hc & H93) Hw Hrd Hf Hl. simpl app in *.
  assert (skip_ws (w ++ c :: t' ++ r) = c :: t' ++ r) as Hs by (rewrite skip_ws_app by done; by apply skip_ws_stop).
  split.
  - cbn [read_filters]. rewrite Hs. rewrite (is_false c 93) by done. rewrite Hrd, Hf. cbn [mbind res_bind]. by rewrite Hl.
  - change (str [44] ++ w ++ c :: t' ++ r) with (n2b 44 :: w ++ c :: t' ++ r). cbn [read_filters]. rewrite (skip_ws_stop (n2b 44)) by (intros [H|[H|[H|H]]]; done).
    change (is (n2b 44) 93) with false. change (is (n2b 44) 44) with true. cbv iota. rewrite Hs. rewrite (is_false c 93) by done. rewrite Hrd, Hf. cbn [mbind res_bind]. by rewrite Hl.
Qed.
Lemma reads_list vs t : items_text vs t -> forall fs n r, Forall2 describes vs fs -> Forall (fun v => nesting v <= 126)%nat vs -> (length vs < n)%nat ->
  read_filters n true (t ++ str [93] ++ r) = Done (Some (fs, r)) /\ read_filters n false (str [44] ++ t ++ str [93] ++ r) = Done (Some (fs, r)).
Proof.
  induction 1 as [v t w w' Hv Hw Hw'|v t w w' l t' Hv Hw Hw' Hl IH]; intros fs n r Hfs Hd Hn.
  - apply Forall2_cons_inv_l in Hfs as (f & fs' & Hf & ->%Forall2_nil_inv_l & ->). apply Forall_cons in Hd as [Hd _]. destruct n as [|[|n]]; [simpl in Hn; lia..|].
    rewrite <- !(assoc_L (++)). apply (filter_step v t w); [by eapply json_starts|done| |by apply described|by apply filters_end].
    apply read_text; [done|done|]. apply (tail_ws w' 93); try done; lia.
  - apply Forall2_cons_inv_l in Hfs as (f & fs' & Hf & Hfs & ->). apply Forall_cons in Hd as [Hd Hd']. destruct n as [|[|n]]; [simpl in Hn; lia..|].
    destruct (IH fs' (S n) r Hfs Hd') as [_ Hr]; [simpl in Hn; lia|].
    rewrite <- !(assoc_L (++)). apply (filter_step v t w); [by eapply json_starts|done| |by apply described|].
    + apply read_text; [done|done|]. apply (tail_ws w' 44); try done; lia.
    + revert Hr. cbn [read_filters]. by rewrite !(skip_ws_app w').
Qed.
Lemma reads_filters vs t fs w w' : Forall2 describes vs fs -> json_text (JArr vs) t -> (nesting (JArr vs) <= 127)%nat -> ws w -> ws w' ->
  filters_from_str (w ++ t ++ w') = Done (Some fs).
Proof.
  intros Hfs Ht Hn Hw Hw'. unfold filters_from_str. rewrite skip_ws_app by done.
  inversion Ht as [| | | | |u Hu|l u Hne Hu| |]; subst; rewrite <- !(assoc_L (++)).
  - apply Forall2_nil_inv_l in Hfs as ->. change (str [91] ++ u ++ str [93] ++ w') with (n2b 91 :: u ++ n2b 93 :: w'). rewrite (skip_ws_stop (n2b 91)) by (intros [H|[H|[H|H]]]; done).
    change (is (n2b 91) 91) with true. cbv iota. cbn [read_filters]. rewrite (ws_close u 93 w') by done. change (is (n2b 93) 93) with true. cbn -[skip_ws]. by rewrite skip_ws_all.
  - change (str [91] ++ u ++ str [93] ++ w') with (n2b 91 :: u ++ str [93] ++ w'). rewrite (skip_ws_stop (n2b 91)) by (intros [H|[H|[H|H]]]; done).
    change (is (n2b 91) 91) with true. cbv iota.
    destruct (reads_list vs u Hu fs (S (length (u ++ str [93] ++ w'))) w' Hfs) as [H _].
    { clear -Hn. simpl in Hn. apply le_S_n in Hn. induction vs as [|x l IH]; simpl in *; constructor; [lia|]. apply IH. lia. }
    { apply len_items in Hu. rewrite app_length. lia. }
    rewrite H. cbn -[skip_ws]. by rewrite skip_ws_all.
Qed.

(** ** Written filters *)
Lemma written_cond c : cond_ok c -> condition_json (cond_json c) c.
Proof.
  destruct c as [n|[o d]]; intros H; simpl; [constructor|]. eapply cj_memcmp.
  - by apply has_spec.
  - by apply has_spec.
  - destruct d as [b|s|s]; constructor. apply Forall2_fmap_l, Forall_Forall2_diag, Forall_forall. done.
Qed.
Lemma written_describes f : filter_ok f -> describes (filter_json f) f.
Proof.
  intros (Ha & Hp & Hf). eexists. split; [done|].
  assert (forall l, Forall (fun pk => pk < 2 ^ 256) l -> Forall2 key_json ((fun pk => JStr (pk_text pk)) <$> l) l) as Hk.
  { intros l Hl. apply Forall2_fmap_l, Forall_Forall2_diag. eapply Forall_impl; [exact Hl|]. intros x Hx. by split. }
  assert (forall cs, Forall cond_ok cs -> Forall2 condition_json (cond_json <$> cs) cs) as Hc.
  { intros l Hl. apply Forall2_fmap_l, Forall_Forall2_diag. eapply Forall_impl; [exact Hl|]. intros x Hx. by apply written_cond. }
  specialize (Hk (f_accounts f) Ha). destruct (f_accounts f) as [|a l].
  - split; [left; split; [done|apply absent_spec; by destruct (f_program f), (f_filters f)]|].
    destruct (f_program f) as [p|], (f_filters f) as [cs|]; (split; [first [by apply absent_spec|eexists; split; [by apply has_spec|done]]|]);
      first [left; by apply absent_spec|eexists; split; [by apply has_spec|by apply Hc]].
  - set (ks := (fun pk => JStr (pk_text pk)) <$> a :: l) in *. split; [right; exists ks; split; [by apply has_spec|done]|].
    destruct (f_program f) as [p|], (f_filters f) as [cs|]; (split; [first [by apply absent_spec|eexists; split; [by apply has_spec|done]]|]);
      first [left; by apply absent_spec|eexists; split; [by apply has_spec|by apply Hc]].
Qed.
Lemma written_cond_writable c : cond_ok c -> writable (cond_json c) /\ (nesting (cond_json c) <= 4)%nat.
Proof.
  destruct c as [n|[o d]]; intros H; simpl in H |- *.
  - split; [|lia]. constructor; [apply NoDup_singleton|]. constructor; [by constructor|constructor].
  - assert (writable (memcmp_data_json d) /\ (nesting (memcmp_data_json d) <= 2)%nat) as [Hw Hn].
    { destruct d as [b|s|s]; simpl.
      - split.
        + constructor; [apply NoDup_singleton|]. constructor; [|constructor]. simpl. constructor. apply Forall_fmap, Forall_forall. intros x _. constructor.
          pose proof (b2n_lt x). change (2 ^ 64) with 18446744073709551616. lia.
        + assert (foldr (fun x => Nat.max (nesting x)) O ((fun x => JNat (b2n x)) <$> b) = O) as ->; [|simpl; lia]. induction b; done.
      - split; [|simpl; lia]. constructor; [apply NoDup_singleton|]. constructor; [constructor|constructor].
      - split; [|simpl; lia]. constructor; [apply NoDup_singleton|]. constructor; [constructor|constructor]. }
    split; [|lia]. constructor; [apply NoDup_singleton|]. constructor; [|constructor]. simpl. constructor.
    + simpl. apply NoDup_cons. split; [|apply NoDup_singleton]. rewrite elem_of_list_singleton. done.
    + constructor; [by constructor|]. constructor; [done|constructor].
Qed.
Lemma max_bound {A} (g : A -> nat) l k : Forall (fun x => g x <= k)%nat l -> (foldr (fun x => Nat.max (g x)) O l <= k)%nat.
Proof. induction 1; simpl; lia. Qed.
Lemma written_writable f : filter_ok f -> writable (filter_json f) /\ (nesting (filter_json f) <= 6)%nat.
Proof.
  intros (Ha & Hp & Hf). unfold filter_json.
  assert (forall es : list (bytes * json), NoDup es.*1 -> Forall (fun e => writable e.2 /\ (nesting e.2 <= 5)%nat) es -> writable (JObj es) /\ (nesting (JObj es) <= 6)%nat) as Hobj.
  { intros es Hd He. apply Forall_and in He as [He1 He2]. split; [by constructor|]. simpl. apply le_n_S. apply (max_bound (fun e : bytes * json => nesting e.2)) in He2.
    clear -He2. etransitivity; [|exact He2]. clear. induction es as [|[k x] es IH]; simpl; lia. }
  apply Hobj.
  - rewrite !fmap_app. destruct (f_accounts f), (f_program f), (f_filters f); by apply (bool_decide_unpack _).
  - assert (forall pk, writable (JStr (pk_text pk)) /\ (nesting (JStr (pk_text pk)) <= 5)%nat) as Hk by (intros pk; split; [constructor|simpl; lia]).
    rewrite !Forall_app. split; [|split].
    + destruct (f_accounts f) as [|a l]; constructor; [|constructor]. simpl. split; [constructor; change (Forall writable ((fun pk => JStr (pk_text pk)) <$> a :: l)); apply Forall_fmap, Forall_forall; intros x _; constructor|].
      apply le_n_S. change (foldr (fun x => Nat.max (nesting x)) O ((fun pk => JStr (pk_text pk)) <$> a :: l) <= 4)%nat. apply max_bound, Forall_fmap, Forall_forall. intros x _. simpl. lia.
    + destruct (f_program f) as [p|]; constructor; [|constructor]. apply Hk.
    + destruct (f_filters f) as [cs|]; constructor; [|constructor]. simpl. split.
      * constructor. apply Forall_fmap. eapply Forall_impl; [exact Hf|]. intros c Hc. by apply written_cond_writable.
      * apply le_n_S, max_bound, Forall_fmap. eapply Forall_impl; [exact Hf|]. intros c Hc. by apply written_cond_writable.
Qed.
Lemma round_trip f : filter_ok f -> filter_from_str (filter_to_string f) = Done (Some f).
Proof.
  intros H. destruct (written_writable f H) as [Hw Hn]. pose proof (reads_filter (filter_json f) (filter_to_string f) f [] []) as R. rewrite app_nil_l, app_nil_r in R.
  apply R; [by apply written_describes|by apply print_text|lia|constructor|constructor].
Qed.
Lemma round_trip_list fs : Forall filter_ok fs -> filters_from_str (filters_to_string fs) = Done (Some fs).
Proof.
  intros H. pose proof (reads_filters (filter_json <$> fs) (filters_to_string fs) fs [] []) as R. rewrite app_nil_l, app_nil_r in R.
  apply R; [|apply print_text; constructor|apply le_n_S| |]; [| | |constructor|constructor].
  - apply Forall2_fmap_l, Forall_Forall2_diag. eapply Forall_impl; [exact H|]. intros x Hx. by apply written_describes.
  - apply Forall_fmap. eapply Forall_impl; [exact H|]. intros f Hf. by apply written_writable.
  - apply max_bound, Forall_fmap. eapply Forall_impl; [exact H|]. intros f Hf. pose proof (proj2 (written_writable f Hf)). change (nesting (filter_json f) <= 126)%nat. lia.
Qed.

(** The reader accepts exactly the texts of the grammar. *)
From Verif Require Import Base DataModel AvecModel AvecSpec AvecProofs Base58Model Base58Proofs JsonModel JsonSpec JsonProofs JsonGrammar.
#[local] Open Scope N_scope.

Lemma bind_inv {A B} (x : option A) (f : A -> option B) y : (x ≫= f) = Some y -> exists a, x = Some a /\ f a = Some y.
Proof. destruct x as [a|]; [|done]. intros H. by exists a. Qed.
Lemma is_eq c n : is c n = true -> n < 256 -> c = n2b n.
Proof. intros H Hn. apply N.eqb_eq in H. apply b2n_inj. by rewrite b2n_n2b, N.mod_small. Qed.
Lemma is_neq c n : is c n = false -> b2n c <> n.
Proof. intros H. by apply N.eqb_neq in H. Qed.
Lemma skip_ws_split b : exists w, ws w /\ b = w ++ skip_ws b /\ match skip_ws b with [] => True | c :: _ => ~ white c end.
Proof.
  induction b as [|c b (w & Hw & Hb & Hs)]; [exists []; repeat constructor|]. simpl. destruct (is_ws c) eqn:E.
  - apply white_is in E. exists (c :: w). split; [by constructor|]. split; [simpl; by f_equal|done].
  - exists []. split; [constructor|]. split; [done|]. intros H%white_is. by rewrite H in E.
Qed.

(** ** Strings *)
Lemma hex_value_sound c v : hex_value c = Some v -> hex_is c v.
Proof.
  intros H. unfold hex_value in H. assert (forall k, k <= b2n c -> b2n c - k + k = b2n c) as Hs by lia. rewrite <- (n2b_b2n c).
  destruct ((48 <=? b2n c) && (b2n c <=? 57)) eqn:E1.
  { apply andb_true_iff in E1 as [E1%N.leb_le E2%N.leb_le]. injection H as <-. replace (b2n c) with (48 + (b2n c - 48)) at 1 by lia. constructor. lia. }
  destruct ((97 <=? b2n c) && (b2n c <=? 102)) eqn:E2.
  { apply andb_true_iff in E2 as [E2%N.leb_le E3%N.leb_le]. injection H as <-. replace (b2n c) with (87 + (b2n c - 87)) at 1 by lia. apply hex_low; lia. }
  destruct ((65 <=? b2n c) && (b2n c <=? 70)) eqn:E3; [|done].
  apply andb_true_iff in E3 as [E3%N.leb_le E4%N.leb_le]. injection H as <-. replace (b2n c) with (55 + (b2n c - 55)) at 1 by lia. apply hex_up; lia.
Qed.
Lemma hex4_sound a b c d n : hex4 a b c d = Some n -> code_unit (str [92; 117] ++ [a; b; c; d]) n /\ n < 65536.
Proof.
  unfold hex4. intros (w & Hw & H)%bind_inv. apply bind_inv in H as (x & Hx & H). apply bind_inv in H as (y & Hy & H). apply bind_inv in H as (z & Hz & [= <-]).
  apply hex_value_sound in Hw, Hx, Hy, Hz. split; [exists a, b, c, d, w, x, y, z; done|].
  apply hex_value_spec in Hw as [_ ?], Hx as [_ ?], Hy as [_ ?], Hz as [_ ?]. lia.
Qed.
Lemma short_sound e n : short_escape e = Some n -> exists k, e = n2b k /\ (k, n) ∈ [(34, 34); (92, 92); (47, 47); (98, 8); (102, 12); (110, 10); (114, 13); (116, 9)].
Proof.
  unfold short_escape. intros H.
  repeat match type of H with (if is e ?k then _ else _) = _ => destruct (is e k) eqn:?; [injection H as <-; exists k; split; [by apply is_eq|apply elem_of_list_In; simpl; tauto]|] end. done.
Qed.
Lemma read_str_sound b s r : read_str b = Some (s, r) -> exists u, chars_text s u /\ b = u ++ str [34] ++ r.
Proof.
  remember (length b) as n eqn:Hn. revert b s r Hn. induction (lt_wf n) as [n _ IH]. intros b s r -> H.
  destruct b as [|c b]; [done|]. cbn [read_str] in H. destruct (is c 34) eqn:E34.
  { injection H as <- <-. exists []. split; [constructor|]. by apply (is_eq c 34) in E34 as ->. }
  destruct (is c 92) eqn:E92.
  - apply (is_eq c 92) in E92 as ->; [|done]. destruct b as [|e b]; [done|]. destruct (is e 117) eqn:E117.
    + apply (is_eq e 117) in E117 as ->; [|done]. destruct b as [|h1 [|h2 [|h3 [|h4 b]]]]; [done..|]. destruct (hex4 h1 h2 h3 h4) as [k|] eqn:Hk; [|done].
      destruct (hex4_sound _ _ _ _ _ Hk) as [Hu Hlt].
      destruct ((56320 <=? k) && (k <=? 57343)) eqn:Elow; [done|]. destruct ((55296 <=? k) && (k <=? 56319)) eqn:Ehigh.
      * apply andb_true_iff in Ehigh as [Eh1%N.leb_le Eh2%N.leb_le]. destruct b as [|x [|y [|k1 [|k2 [|k3 [|k4 b]]]]]]; [done..|].
        destruct (is x 92 && is y 117) eqn:Exy; [|done]. apply andb_true_iff in Exy as [Ex Ey]. apply (is_eq x 92) in Ex as ->; [|done]. apply (is_eq y 117) in Ey as ->; [|done].
        destruct (hex4 k1 k2 k3 k4) as [m|] eqn:Hm; [|done]. destruct (hex4_sound _ _ _ _ _ Hm) as [Hu' Hlt'].
        destruct ((56320 <=? m) && (m <=? 57343)) eqn:Em; [|done]. apply andb_true_iff in Em as [Em1%N.leb_le Em2%N.leb_le].
        apply bind_inv in H as ([s' r'] & Hs & [= <- <-]). destruct (IH (length b) ltac:(simpl; lia) b s' r' eq_refl Hs) as (u & Hc & ->).
        exists (((str [92; 117] ++ [h1; h2; h3; h4]) ++ (str [92; 117] ++ [k1; k2; k3; k4])) ++ u). split; [|done]. constructor; [|done].
        apply (ch_pair _ _ (k - 55296) (m - 56320)); [by replace (55296 + (k - 55296)) with k by lia|by replace (56320 + (m - 56320)) with m by lia|lia|lia|].
        apply utf8_spec. split; [lia|done].
      * apply bind_inv in H as ([s' r'] & Hs & [= <- <-]). destruct (IH (length b) ltac:(simpl; lia) b s' r' eq_refl Hs) as (u & Hc & ->).
        exists ((str [92; 117] ++ [h1; h2; h3; h4]) ++ u). split; [|done]. constructor; [|done]. apply (ch_code _ k); [done| |apply utf8_spec; split; [lia|done]].
        apply andb_false_iff in Elow, Ehigh. rewrite !N.leb_gt in Elow, Ehigh. lia.
    + destruct (short_escape e) as [k|] eqn:Hk; [|done]. destruct (short_sound _ _ Hk) as (k' & -> & Hin).
      apply bind_inv in H as ([s' r'] & Hs & [= <- <-]). destruct (IH (length b) ltac:(simpl; lia) b s' r' eq_refl Hs) as (u & Hc & ->).
      exists (str [92; k'] ++ u). split; [|done]. by apply (cs_cons (str [k])); [constructor|].
  - destruct (N.ltb_spec (b2n c) 32) as [|Hc32]; [done|]. apply bind_inv in H as ([s' r'] & Hs & [= <- <-]).
    destruct (IH (length b) ltac:(simpl; lia) b s' r' eq_refl Hs) as (u & Hc & ->). exists ([c] ++ u). split; [|done].
    apply (cs_cons [c]); [|done]. constructor; [done|by apply is_neq|by apply is_neq].
Qed.

(** ** Numbers *)
Lemma digit_is c : is_digit c = true <-> 48 <= b2n c <= 57.
Proof. unfold is_digit. rewrite andb_true_iff, !N.leb_le. done. Qed.
Lemma take_digits_sound b x r : take_digits b = (x, r) -> b = x ++ r /\ Forall (fun c => 48 <= b2n c <= 57) x.
Proof.
  revert x r. induction b as [|c b IH]; intros x r H; simpl in H; [injection H as <- <-; split; [done|constructor]|].
  destruct (is_digit c) eqn:E; [|injection H as <- <-; split; [done|constructor]].
  destruct (take_digits b) as [y r'] eqn:Ht. injection H as <- <-. destruct (IH _ _ eq_refl) as [-> Hy]. split; [done|]. constructor; [by apply digit_is|done].
Qed.
Lemma decimal_value x : digits x -> decimal x (digits_value x).
Proof.
  intros [Hne Hx]. induction x as [|c x IH] using rev_ind; [done|]. apply Forall_app in Hx as [Hx Hc]. apply Forall_cons in Hc as [Hc _].
  unfold digits_value in *. rewrite foldl_app. simpl. rewrite <- (n2b_b2n c) at 1. replace (b2n c) with (48 + (b2n c - 48)) at 1 by lia.
  destruct x as [|c0 x]; [cbn [foldl app]; replace (10 * 0 + (b2n c - 48)) with (b2n c - 48) by lia; apply dec_one; lia|]. apply dec_snoc; [|lia]. by apply IH.
Qed.
Lemma nat_part_sound b x r : read_nat_part b = Some (x, r) -> b = x ++ r /\ prints x (digits_value x).
Proof.
  unfold read_nat_part. destruct (take_digits b) as [y r'] eqn:Ht. apply take_digits_sound in Ht as [-> Hy]. intros H.
  destruct y as [|c [|c' y]]; [done| |]; [|destruct (is c 48) eqn:E; [done|]]; injection H as <- <-; (split; [done|]); (split; [by apply decimal_value|]); simpl; intros [= ->].
  - done.
  - done.
Qed.
Lemma frac_exp_sound b fl r : frac_exp b = Some (fl, r) -> exists f e, b = f ++ e ++ r /\ fraction f /\ exponent e /\ (fl = true <-> f <> [] \/ e <> []).
Proof.
  unfold frac_exp. intros ([fr r1] & Hf & H)%bind_inv.
  assert (exists f, b = f ++ r1 /\ fraction f /\ (fr = true <-> f <> [])) as (f & -> & Hfr & Hft).
  { destruct b as [|c b]; [injection Hf as <- <-; exists []; split; [done|]; split; [constructor|done]|].
    destruct (is c 46) eqn:E; [|injection Hf as <- <-; exists []; split; [done|]; split; [constructor|done]].
    apply (is_eq c 46) in E as ->; [|done]. destruct (take_digits b) as [x r'] eqn:Ht. apply take_digits_sound in Ht as [-> Hx]. destruct x as [|d x]; [done|]. injection Hf as <- <-.
    exists (str [46] ++ d :: x). split; [done|]. split; [by constructor|done]. }
  exists f. destruct r1 as [|c r1]; [injection H as <- <-; exists []; split; [done|]; split; [done|]; split; [constructor|]; tauto|].
  destruct (is c 101 || is c 69) eqn:E; [|injection H as <- <-; exists []; split; [done|]; split; [done|]; split; [constructor|]; tauto].
  assert (exists e, c = n2b e /\ (e = 69 \/ e = 101)) as (e & -> & He).
  { apply orb_true_iff in E as [E|E]; [exists 101; split; [by apply is_eq|tauto]|exists 69; split; [by apply is_eq|tauto]]. }
  set (b'' := match r1 with [] => r1 | s :: b'' => if is s 43 || is s 45 then b'' else r1 end) in H.
  assert (exists s, r1 = s ++ b'' /\ (s = [] \/ s = str [43] \/ s = str [45])) as (s & Hr1 & Hs).
  { subst b''. destruct r1 as [|s r1]; [exists []; tauto|]. destruct (is s 43 || is s 45) eqn:E'; [|exists []; tauto].
    exists [s]. split; [done|]. apply orb_true_iff in E' as [E'|E']; apply is_eq in E' as ->; try done; tauto. }
  destruct (take_digits b'') as [x r'] eqn:Ht. apply take_digits_sound in Ht as [Hb Hx]. destruct x as [|d x]; [done|]. injection H as <- <-.
  exists (str [e] ++ s ++ d :: x). split; [rewrite Hr1, Hb; simpl; by rewrite <- !(assoc_L (++))|]. split; [done|]. split; [by constructor|]. split; [right; by destruct s|done].
Qed.
Lemma read_number_sound d b v r : read_number b = Some (v, r) -> exists t, b = t ++ r /\ doc d v t.
Proof.
  unfold read_number. destruct b as [|c b]; [done|]. destruct (is c 45) eqn:E.
  - apply (is_eq c 45) in E as ->; [|done]. intros ([x r1] & Hx & H)%bind_inv. apply bind_inv in H as ([fl r2] & Hf & [= <- <-]).
    apply nat_part_sound in Hx as [-> Hx]. apply frac_exp_sound in Hf as (f & e & -> & Hf & He & _).
    exists (str [45] ++ x ++ f ++ e). split; [simpl; by rewrite <- !(assoc_L (++))|]. eapply doc_num; [by right|done..|by left].
  - intros ([x r1] & Hx & H)%bind_inv. apply bind_inv in H as ([fl r2] & Hf & [= <- <-]).
    apply nat_part_sound in Hx as [-> Hx]. apply frac_exp_sound in Hf as (f & e & -> & Hf & He & Hfl). exists (x ++ f ++ e). split; [by rewrite <- !(assoc_L (++))|].
    destruct fl.
    + eapply (doc_num d _ []); [by left|done..|]. right. destruct (proj1 Hfl eq_refl) as [?|?]; [by left|by right; left].
    + assert (f = [] /\ e = []) as [-> ->]. { destruct f, e; try done; (destruct Hfl as [_ Hfl]; discriminate Hfl; by auto). }
      simpl. rewrite app_nil_r. destruct (N.ltb_spec (digits_value x) (2 ^ 64)); [by constructor|].
      pose proof (doc_num d _ [] x [] [] (or_introl eq_refl) Hx fr_none ex_none) as Hd. rewrite !app_nil_r in Hd. simpl in Hd. apply Hd. by right; right; right.
Qed.
Lemma dedup_wins l : last_wins l (dedup l).
Proof.
  induction l as [|[k v] l IH]; [constructor|]. simpl. destruct (existsb _ l) eqn:E.
  - constructor; [|done]. apply existsb_exists in E as ([k' v'] & Hin & Hk). apply bool_decide_eq_true in Hk. simpl in Hk. subst.
    apply elem_of_list_fmap. exists (k, v'). split; [done|]. by apply elem_of_list_In.
  - constructor; [|done]. intros ([k' v'] & Hk & Hin)%elem_of_list_fmap. simpl in Hk. subst k'. apply not_true_iff_false in E. apply E. apply existsb_exists. exists (k, v').
    split; [by apply elem_of_list_In|]. by apply bool_decide_eq_true.
Qed.
Lemma wins_dedup l l' : last_wins l l' -> l' = dedup l.
Proof.
  induction 1 as [|k v l l' Hk H IH|k v l l' Hk H IH]; [done|..]; simpl.
  - replace (existsb (fun e => bool_decide (e.1 = k)) l) with true; [done|]. symmetry. apply existsb_exists. apply elem_of_list_fmap in Hk as ([k' v'] & Hk & Hin). simpl in Hk. subst k'.
    exists (k, v'). split; [by apply elem_of_list_In|]. by apply bool_decide_eq_true.
  - destruct (existsb _ l) eqn:E; [|by rewrite IH]. exfalso. apply Hk. apply existsb_exists in E as ([k' v'] & Hin & Hk'). apply bool_decide_eq_true in Hk'. simpl in Hk'. subst.
    apply elem_of_list_fmap. exists (k, v'). split; [done|]. by apply elem_of_list_In.
Qed.

(** ** Values *)
Definition sound_at (d : nat) (rd : bytes -> option (json * bytes)) : Prop :=
  forall b v r, rd b = Some (v, r) -> exists w t, ws w /\ b = w ++ t ++ r /\ doc d v t.
Lemma items_sound d rd f first b l r : sound_at d rd -> read_items rd f first b = Some (l, r) ->
  l = [] /\ (exists w, ws w /\ b = w ++ str [93] ++ r) \/
  l <> [] /\ exists w t, ws w /\ items_doc d l t /\ b = w ++ (if first then [] else str [44]) ++ t ++ str [93] ++ r.
Proof.
  intros Hrd. revert first b l r. induction f as [|f IH]; intros first b l r H; [done|]. cbn [read_items] in H.
  destruct (skip_ws_split b) as (w & Hw & Hb & _). destruct (skip_ws b) as [|c b1]; [done|]. destruct (is c 93) eqn:E.
  { injection H as <- <-. left. split; [done|]. exists w. split; [done|]. rewrite Hb. by apply (is_eq c 93) in E as ->. }
  right. apply bind_inv in H as (s & Hs & H). apply bind_inv in H as ([v r1] & Hv & H). apply bind_inv in H as ([vs r2] & Hvs & [= <- <-]). split; [done|].
  destruct (Hrd _ _ _ Hv) as (w1 & t & Hw1 & -> & Ht).
  assert (exists w0, ws w0 /\ b = w ++ (if first then [] else str [44]) ++ w0 ++ w1 ++ t ++ r1) as (w0 & Hw0 & Hb').
  { destruct first.
    - injection Hs as Hs. exists []. split; [constructor|]. rewrite Hb, Hs. done.
    - destruct (is c 44) eqn:E44; [|done]. apply (is_eq c 44) in E44 as ->; [|done]. destruct (skip_ws_split b1) as (w0 & Hw0 & Hb1 & _).
      destruct (skip_ws b1) as [|c' b2]; [done|]. destruct (is c' 93); [done|]. injection Hs as Hs. exists w0. split; [done|]. rewrite Hb, Hb1, Hs. done. }
  destruct (IH _ _ _ _ Hvs) as [[-> (w2 & Hw2 & Hr1)]|[Hne (w2 & t2 & Hw2 & Ht2 & Hr1)]].
  - exists w, ((w0 ++ w1) ++ t ++ w2). split; [done|]. split; [constructor; [done|by apply Forall_app|done]|]. rewrite Hb', Hr1. by rewrite <- !(assoc_L (++)).
  - exists w, (((w0 ++ w1) ++ t ++ w2) ++ str [44] ++ t2). split; [done|]. split; [constructor; [done|by apply Forall_app|done|done]|]. rewrite Hb', Hr1. by rewrite <- !(assoc_L (++)).
Qed.
Lemma entries_sound d rd f first b l r : sound_at d rd -> read_entries rd f first b = Some (l, r) ->
  l = [] /\ (exists w, ws w /\ b = w ++ str [125] ++ r) \/
  l <> [] /\ exists w t, ws w /\ entries_doc d l t /\ b = w ++ (if first then [] else str [44]) ++ t ++ str [125] ++ r.
Proof.
  intros Hrd. revert first b l r. induction f as [|f IH]; intros first b l r H; [done|]. cbn [read_entries] in H.
  destruct (skip_ws_split b) as (w & Hw & Hb & _). destruct (skip_ws b) as [|c b1]; [done|]. destruct (is c 125) eqn:E.
  { injection H as <- <-. left. split; [done|]. exists w. split; [done|]. rewrite Hb. by apply (is_eq c 125) in E as ->. }
  right. apply bind_inv in H as (s & Hs & H). destruct s as [|q s]; [done|]. destruct (is q 34) eqn:Eq; [|done]. apply (is_eq q 34) in Eq as ->; [|done].
  apply bind_inv in H as ([k r1] & Hk & H). destruct (skip_ws_split r1) as (w2 & Hw2 & Hr1 & _). destruct (skip_ws r1) as [|e r1']; [done|]. destruct (is e 58) eqn:Ee; [|done].
  apply (is_eq e 58) in Ee as ->; [|done]. apply bind_inv in H as ([v r3] & Hv & H). apply bind_inv in H as ([es r4] & Hes & [= <- <-]). split; [done|].
  apply read_str_sound in Hk as (u & Hu & ->). destruct (Hrd _ _ _ Hv) as (w3 & t & Hw3 & -> & Ht).
  assert (str_text k (str [34] ++ u ++ str [34])) as Hst by (by exists u).
  assert (exists w1, ws w1 /\ b = w ++ (if first then [] else str [44]) ++ w1 ++ (str [34] ++ u ++ str [34]) ++ w2 ++ str [58] ++ w3 ++ t ++ r3) as (w1 & Hw1 & Hb').
  { destruct first.
    - injection Hs as -> ->. exists []. split; [constructor|]. rewrite Hb, Hr1. simpl. by rewrite <- !(assoc_L (++)).
    - destruct (is c 44) eqn:E44; [|done]. apply (is_eq c 44) in E44 as ->; [|done]. injection Hs as Hs. destruct (skip_ws_split b1) as (w1 & Hw1 & Hb1 & _). exists w1. split; [done|].
      rewrite Hb, Hb1, Hs, Hr1. simpl. by rewrite <- !(assoc_L (++)). }
  destruct (IH _ _ _ _ Hes) as [[-> (w4 & Hw4 & Hr3)]|[Hne (w4 & t2 & Hw4 & Ht2 & Hr3)]].
  - exists w, (w1 ++ (str [34] ++ u ++ str [34]) ++ w2 ++ str [58] ++ w3 ++ t ++ w4). split; [done|]. split; [by constructor|]. rewrite Hb', Hr3. by rewrite <- !(assoc_L (++)).
  - exists w, ((w1 ++ (str [34] ++ u ++ str [34]) ++ w2 ++ str [58] ++ w3 ++ t ++ w4) ++ str [44] ++ t2). split; [done|]. split; [by constructor|]. rewrite Hb', Hr3. by rewrite <- !(assoc_L (++)).
Qed.
Lemma strip_sound p b r : strip p b = Some r -> b = p ++ r.
Proof. unfold strip. destruct (bool_decide _) eqn:E; [|done]. intros [= <-]. apply bool_decide_eq_true in E. by rewrite <- E at 1; rewrite take_drop. Qed.
Lemma read_value_sound d : sound_at d (read_value d).
Proof.
  induction d as [|d IH]; intros b v r H;
    (destruct (skip_ws_split b) as (w & Hw & Hb & _); cbn [read_value] in H; destruct (skip_ws b) as [|c b1]; [done|]; exists w;
     match goal with |- exists t, _ /\ _ /\ doc ?dd v t => cut (exists t, c :: b1 = t ++ r /\ doc dd v t) end; [intros (t & Ht & Hd); exists t; split; [done|]; split; [by rewrite Hb, Ht|exact Hd]|]; clear Hb Hw b w;
     destruct (is c 110) eqn:E1;
       [apply bind_inv in H as (r' & Hr & [= <- <-]); apply strip_sound in Hr as ->; apply (is_eq c 110) in E1 as ->; [|done]; eexists; split; [|constructor]; done|];
     destruct (is c 116) eqn:E2;
       [apply bind_inv in H as (r' & Hr & [= <- <-]); apply strip_sound in Hr as ->; apply (is_eq c 116) in E2 as ->; [|done]; eexists; split; [|constructor]; done|];
     destruct (is c 102) eqn:E3;
       [apply bind_inv in H as (r' & Hr & [= <- <-]); apply strip_sound in Hr as ->; apply (is_eq c 102) in E3 as ->; [|done]; eexists; split; [|constructor]; done|];
     destruct (is c 34) eqn:E4;
       [apply bind_inv in H as ([s r'] & Hr & [= <- <-]); apply read_str_sound in Hr as (u & Hu & ->); apply (is_eq c 34) in E4 as ->; [|done];
        exists (str [34] ++ u ++ str [34]); split; [simpl; by rewrite <- !(assoc_L (++))|]; constructor; by exists u|]).
  - destruct (is c 91); [done|]. destruct (is c 123); [done|]. destruct (is c 45 || is_digit c); [|done]. by apply read_number_sound.
  - destruct (is c 91) eqn:E5.
    { apply bind_inv in H as ([l r'] & Hl & [= <- <-]). apply (is_eq c 91) in E5 as ->; [|done]. apply (items_sound d) in Hl as [[-> (w & Hw & ->)]|[Hne (w & t & Hw & Ht & ->)]]; [| |done].
      - exists (str [91] ++ w ++ str [93]). split; [simpl; by rewrite <- !(assoc_L (++))|]. by constructor.
      - exists (str [91] ++ (w ++ t) ++ str [93]). split; [simpl; by rewrite <- !(assoc_L (++))|]. apply doc_arr. clear -Hw Ht.
        destruct Ht as [d v t w1 w2 Ht H1 H2|d v t w1 w2 l t' Ht H1 H2 Hl].
        + rewrite (assoc_L (++)). by constructor; [|apply Forall_app|].
        + rewrite (assoc_L (++) w), (assoc_L (++) w). by constructor; [|apply Forall_app|..]. }
    destruct (is c 123) eqn:E6; [|destruct (is c 45 || is_digit c); [|done]; by apply read_number_sound].
    apply bind_inv in H as ([l r'] & Hl & [= <- <-]). apply (is_eq c 123) in E6 as ->; [|done]. apply (entries_sound d) in Hl as [[-> (w & Hw & ->)]|[Hne (w & t & Hw & Ht & ->)]]; [| |done].
    + exists (str [123] ++ w ++ str [125]). split; [simpl; by rewrite <- !(assoc_L (++))|]. by constructor.
    + exists (str [123] ++ (w ++ t) ++ str [125]). split; [simpl; by rewrite <- !(assoc_L (++))|]. eapply doc_obj; [|apply dedup_wins]. clear -Hw Ht.
      destruct Ht as [d k v tk t w1 w2 w3 w4 Hk Ht H1 H2 H3 H4|d k v tk t w1 w2 w3 w4 l t' Hk Ht H1 H2 H3 H4 Hl].
      * rewrite (assoc_L (++) w). by constructor; [..|apply Forall_app|done|done|done].
      * rewrite (assoc_L (++) w), (assoc_L (++) w). by constructor; [done..|apply Forall_app|done|done|done|done].
Qed.

(** ** Every text of the grammar is accepted *)
Lemma tail_not_digit r : tail_ok r -> match r with [] => True | c :: _ => is_digit c = false end.
Proof. destruct r; [done|]. by intros (? & _). Qed.
Lemma take_digits_stop x r : Forall (fun b => 48 <= b2n b <= 57) x -> match r with [] => True | c :: _ => is_digit c = false end -> take_digits (x ++ r) = (x, r).
Proof.
  intros Hx Hr. induction Hx as [|c x Hc Hx IH]; simpl.
  - destruct r as [|c r]; [done|]. simpl. by rewrite Hr.
  - rewrite (proj2 (digit_is c)) by lia. by rewrite IH.
Qed.
Lemma exp_head e r : exponent e -> tail_ok r -> match e ++ r with [] => True | c :: _ => is_digit c = false /\ b2n c <> 46 end.
Proof.
  destruct 1 as [|e s x He Hs Hx]; [destruct r; [done|]; by intros (? & ? & _)|]. intros _. simpl. destruct He as [-> | ->]; done.
Qed.
Lemma frac_exp_reads f e r : fraction f -> exponent e -> tail_ok r -> exists fl, frac_exp (f ++ e ++ r) = Some (fl, r) /\ (fl = true <-> f <> [] \/ e <> []).
Proof.
  intros Hf He Hr. pose proof (exp_head e r He Hr) as Hh. unfold frac_exp.
  assert (exists fr, match f ++ e ++ r with
    | c :: b' => if is c 46 then let '(x, r) := take_digits b' in match x with [] => None | _ => Some (true, r) end else Some (false, f ++ e ++ r)
    | [] => Some (false, f ++ e ++ r) end = Some (fr, e ++ r) /\ (fr = true <-> f <> [])) as (fr & -> & Hfr).
  { destruct Hf as [|x [Hne Hx]].
    - exists false. simpl. split; [|done]. destruct (e ++ r) as [|c l]; [done|]. destruct Hh as [_ Hh]. by rewrite (is_false c 46).
    - exists true. split; [|done]. rewrite <- (assoc_L (++)). change (str [46] ++ x ++ e ++ r) with (n2b 46 :: x ++ e ++ r). cbv beta iota. change (is (n2b 46) 46) with true. cbv iota.
      rewrite take_digits_stop; [by destruct x|done|]. destruct (e ++ r); [done|]. tauto. }
  cbn [mbind option_bind]. destruct He as [|k s x Hk Hs [Hne Hx]].
  - exists fr. simpl. split; [|rewrite Hfr; split; [by left|intros [?|?]; done]]. destruct r as [|c r]; [done|]. destruct Hr as (_ & _ & H1 & H2). by rewrite !is_false.
  - exists true. split; [|split; [by right|done]]. rewrite <- !(assoc_L (++)). change (str [k] ++ s ++ x ++ r) with (n2b k :: s ++ x ++ r).
    cbv beta iota. replace (is (n2b k) 101 || is (n2b k) 69) with true by (by destruct Hk as [-> | ->]). cbv iota zeta.
    replace (match s ++ x ++ r with [] => s ++ x ++ r | s0 :: b'' => if is s0 43 || is s0 45 then b'' else s ++ x ++ r end) with (x ++ r).
    + rewrite take_digits_stop; [by destruct x|done|by apply tail_not_digit].
    + destruct x as [|c x]; [done|]. apply Forall_cons in Hx as [Hc _]. destruct Hs as [->|[-> | ->]]; [|done|done]. simpl. by rewrite !is_false by lia.
Qed.
Lemma nat_part_reads i n r : prints i n -> match r with [] => True | c :: _ => is_digit c = false end -> read_nat_part (i ++ r) = Some (i, r).
Proof.
  intros [Hd Hp] Hr. destruct (decimal_bytes _ _ Hd) as [Hne Hb]. unfold read_nat_part. rewrite take_digits_stop by done. destruct i as [|c [|c' i]]; [done|done|].
  destruct (is c 48) eqn:E; [|done]. apply (is_eq c 48) in E as ->; [|done]. simpl in Hp. by destruct Hp as [_ Hp].
Qed.
Lemma read_num n s i f e r : s = [] \/ s = str [45] -> prints i n -> fraction f -> exponent e -> s <> [] \/ f <> [] \/ e <> [] \/ 2 ^ 64 <= n -> tail_ok r ->
  read_number ((s ++ i ++ f ++ e) ++ r) = Some (JNum, r).
Proof.
  intros Hs Hi Hf He Hc Hr. rewrite <- !(assoc_L (++)). destruct (frac_exp_reads f e r Hf He Hr) as (fl & Hfe & Hfl).
  assert (match f ++ e ++ r with [] => True | c :: _ => is_digit c = false end) as Hd.
  { pose proof (exp_head e r He Hr) as Hh. destruct Hf; [|done]. simpl. destruct (e ++ r); [done|tauto]. }
  pose proof (nat_part_reads i n _ Hi Hd) as Hp. destruct Hs as [-> | ->].
  - simpl. pose proof (starts_prints _ _ Hi) as (c & i' & Hi' & Hc'). unfold read_number. rewrite Hi' at 1. cbn [app]. rewrite (is_false c 45) by lia.
    eapply bind_some; [exact Hp|]. cbv beta iota. eapply bind_some; [exact Hfe|]. cbv beta iota. destruct fl; [done|].
    rewrite (value_decimal _ _ (proj1 Hi)). destruct (N.ltb_spec n (2 ^ 64)); [|done]. exfalso.
    assert (f <> [] \/ e <> []) as Hx by (destruct Hc as [?|[?|[?|?]]]; [done|by left|by right|lia]). apply Hfl in Hx. done.
  - change (str [45] ++ i ++ f ++ e ++ r) with (n2b 45 :: i ++ f ++ e ++ r). unfold read_number. change (is (n2b 45) 45) with true. cbv iota.
    eapply bind_some; [exact Hp|]. cbv beta iota. eapply bind_some; [exact Hfe|]. done.
Qed.
Lemma doc_starts d v t : doc d v t -> starts t.
Proof.
  assert (forall n t', n < 256 -> n <> 32 -> n <> 9 -> n <> 10 -> n <> 13 -> n <> 93 -> starts (n2b n :: t')) as Hs.
  { intros n t' H. intros. exists (n2b n), t'. split; [done|]. unfold white. rewrite !b2n_n2b, !N.mod_small by done. lia. }
  assert (forall t n t', prints t n -> starts (t ++ t')) as Hp.
  { intros t0 n t' (c & t1 & -> & Hc)%starts_prints. exists c, (t1 ++ t'). split; [done|]. unfold white. lia. }
  destruct 1 as [| | |d n t Hn _|d n s i f e Hsg Hi _ _ _|d s t (u & Hu & ->)| | | |]; try (by apply Hs).
  - rewrite <- (app_nil_r t). by eapply Hp.
  - destruct Hsg as [-> | ->]; [exact (Hp i n _ Hi)|by apply Hs].
Qed.
Lemma len_items_doc d l t : items_doc d l t -> (length l <= length t)%nat.
Proof.
  induction 1 as [d v t w w' Hv|d v t w w' l t' Hv _ _ Hl IH]; apply doc_starts in Hv as (c & t0 & -> & _); rewrite !app_length; simpl; lia.
Qed.
Lemma len_entries_doc d l t : entries_doc d l t -> (length l <= length t)%nat.
Proof. induction 1; rewrite !app_length; simpl; lia. Qed.
Lemma number_value d c r o : read_number (c :: r) = o -> b2n c = 45 \/ 48 <= b2n c <= 57 -> read_value d (c :: r) = o.
Proof.
  intros H Hc. assert (is_ws c = false) as Hw. { destruct (is_ws c) eqn:E; [|done]. apply white_is in E. unfold white in E. lia. }
  assert (is c 45 || is_digit c = true) as Hg. { destruct Hc as [Hc|Hc]; [unfold is; by rewrite Hc|]. apply orb_true_iff. right. by apply digit_is. }
  destruct d; simpl; rewrite Hw; rewrite (is_false c 110), (is_false c 116), (is_false c 102), (is_false c 34), (is_false c 91), (is_false c 123) by lia; by rewrite Hg.
Qed.
Lemma reads_docs : (forall d v t, doc d v t -> forall r, tail_ok r -> read_value d (t ++ r) = Some (v, r)) /\
  (forall d l t, items_doc d l t -> forall f r, (length l < f)%nat ->
     read_items (read_value d) f true (t ++ str [93] ++ r) = Some (l, r) /\ read_items (read_value d) f false (str [44] ++ t ++ str [93] ++ r) = Some (l, r)) /\
  (forall d l t, entries_doc d l t -> forall f r, (length l < f)%nat ->
     read_entries (read_value d) f true (t ++ str [125] ++ r) = Some (l, r) /\ read_entries (read_value d) f false (str [44] ++ t ++ str [125] ++ r) = Some (l, r)).
Proof.
  apply doc_ind3.
  - intros d r _. by destruct d.
  - intros d r _. by destruct d.
  - intros d r _. by destruct d.
  - intros d n t Hp Hn r Hr. pose proof (read_prints t n r Hp Hn Hr) as H. apply starts_prints in Hp as (c & t' & -> & Hc). apply number_value; [done|by right].
  - intros d n s i f e Hs Hi Hf He Hc r Hr. pose proof (read_num n s i f e r Hs Hi Hf He Hc Hr) as H. destruct Hs as [-> | ->].
    + simpl in *. apply starts_prints in Hi as (c & t' & -> & Hcc). by apply number_value; [|right].
    + by apply (number_value d (n2b 45)); [|left].
  - intros d s t (u & Hu & ->) r _. rewrite <- !(assoc_L (++)). pose proof (read_chars s u r Hu) as H.
    change (str [34] ++ u ++ str [34] ++ r) with (n2b 34 :: u ++ str [34] ++ r). destruct d; (eapply bind_some; [exact H|done]).
  - intros d w Hw r _. rewrite <- !(assoc_L (++)). change (str [91] ++ w ++ str [93] ++ r) with (n2b 91 :: w ++ n2b 93 :: r). cbn -[read_items app].
    eapply bind_some; [cbn [read_items]; rewrite (ws_close w 93 r) by done; reflexivity|done].
  - intros d l t Hl IH r _. rewrite <- !(assoc_L (++)). destruct (IH (S (length (t ++ str [93] ++ r))) r) as [H _].
    { apply len_items_doc in Hl. rewrite app_length. lia. }
    change (str [91] ++ t ++ str [93] ++ r) with (n2b 91 :: t ++ str [93] ++ r). cbn -[read_items str app]. eapply bind_some; [exact H|done].
  - intros d w Hw r _. rewrite <- !(assoc_L (++)). change (str [123] ++ w ++ str [125] ++ r) with (n2b 123 :: w ++ n2b 125 :: r). cbn -[read_entries app].
    eapply bind_some; [cbn [read_entries]; rewrite (ws_close w 125 r) by done; reflexivity|done].
  - intros d l l' t Hl IH ->%wins_dedup r _. rewrite <- !(assoc_L (++)). destruct (IH (S (length (t ++ str [125] ++ r))) r) as [H _].
    { apply len_entries_doc in Hl. rewrite app_length. lia. }
    change (str [123] ++ t ++ str [125] ++ r) with (n2b 123 :: t ++ str [125] ++ r). cbn -[read_entries str app]. eapply bind_some; [exact H|done].
  - intros d v t w w' Hv IH Hw Hw' f r Hf. destruct f as [|[|f]]; [simpl in Hf; lia..|]. rewrite <- !(assoc_L (++)). apply (item_step v t w).
    + by eapply doc_starts.
    + done.
    + apply IH. apply (tail_ws w' 93); try done; lia.
    + by apply items_end.
  - intros d v t w w' l t' Hv IHv Hw Hw' Hl IHl f r Hf. destruct f as [|f]; [simpl in Hf; lia|].
    destruct (IHl f r) as [_ Hr]; [simpl in Hf; lia|]. rewrite <- !(assoc_L (++)). apply (item_step v t w).
    + by eapply doc_starts.
    + done.
    + apply IHv. apply (tail_ws w' 44); try done; lia.
    + destruct f as [|f]; [simpl in Hf; lia|]. revert Hr. simpl read_items. by rewrite !(skip_ws_app w').
  - intros d k v tk t w1 w2 w3 w4 Hk Hv IH Hw1 Hw2 Hw3 Hw4 f r Hf. destruct f as [|[|f]]; [simpl in Hf; lia..|]. rewrite <- !(assoc_L (++)).
    apply (entry_step k v tk t w1 w2 w3); try done.
    + by eapply doc_starts.
    + rewrite value_skip by done. apply IH. apply (tail_ws w4 125); try done; lia.
    + by apply entries_end.
  - intros d k v tk t w1 w2 w3 w4 l t' Hk Hv IHv Hw1 Hw2 Hw3 Hw4 Hl IHl f r Hf. destruct f as [|f]; [simpl in Hf; lia|].
    destruct (IHl f r) as [_ Hr]; [simpl in Hf; lia|]. rewrite <- !(assoc_L (++)). apply (entry_step k v tk t w1 w2 w3); try done.
    + by eapply doc_starts.
    + rewrite value_skip by done. apply IHv. apply (tail_ws w4 44); try done; lia.
    + destruct f as [|f]; [simpl in Hf; lia|]. revert Hr. simpl read_entries. by rewrite !(skip_ws_app w4).
Qed.
Lemma tail_white w : ws w -> tail_ok w.
Proof.
  intros [|c l Hc _]; [done|]. simpl. unfold white in Hc. split; [|lia]. apply not_true_iff_false. rewrite digit_is. lia.
Qed.
Lemma skip_nil b : skip_ws b = [] -> ws b.
Proof. intros H. destruct (skip_ws_split b) as (w & Hw & Hb & _). rewrite H, app_nil_r in Hb. by subst. Qed.
Lemma read_value_exact d b v : (exists r, read_value d b = Some (v, r) /\ skip_ws r = []) <-> exists w t w', b = w ++ t ++ w' /\ ws w /\ ws w' /\ doc d v t.
Proof.
  split.
  - intros (r & H & Hr%skip_nil). destruct (read_value_sound d b v r H) as (w & t & Hw & -> & Ht). by exists w, t, r.
  - intros (w & t & w' & -> & Hw & Hw' & Ht). exists w'. split; [|by apply skip_ws_all]. rewrite value_skip by done. apply reads_docs; [done|]. by apply tail_white.
Qed.
Lemma json_exact b v : json_from_str b = Some v <-> document b v.
Proof.
  unfold document. rewrite <- read_value_exact. unfold json_from_str, read_json. split.
  - intros ([v' r] & H & Hr)%bind_inv. destruct (skip_ws r) eqn:E; [|done]. injection Hr as <-. eauto.
  - intros (r & H & Hr). eapply bind_some; [exact H|]. cbv beta iota. by rewrite Hr.
Qed.

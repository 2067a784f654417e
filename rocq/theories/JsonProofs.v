(** The reader of JSON text accepts every text of the grammar and gives its value; the printer produces texts of the grammar. *)
From Verif Require Import Base DataModel AvecModel AvecSpec AvecProofs Base58Model Base58Proofs JsonModel JsonSpec.
#[local] Open Scope N_scope.

Lemma bind_some {A B} (x : option A) (f : A -> option B) a o : x = Some a -> f a = o -> (x ≫= f) = o.
Proof. by intros ->. Qed.
Lemma white_is c : white c <-> is_ws c = true.
Proof. unfold white, is_ws, is. rewrite !orb_true_iff, !N.eqb_eq. tauto. Qed.
Lemma skip_ws_app w b : ws w -> skip_ws (w ++ b) = skip_ws b.
Proof. induction 1 as [|c w Hc Hw IH]; [done|]. simpl. apply white_is in Hc. by rewrite Hc. Qed.
Lemma skip_ws_all w : ws w -> skip_ws w = [].
Proof. intros H. rewrite <- (app_nil_r w), skip_ws_app by done. done. Qed.
Lemma skip_ws_stop c b : ~ white c -> skip_ws (c :: b) = c :: b.
Proof. intros H. simpl. destruct (is_ws c) eqn:E; [|done]. by apply white_is in E. Qed.
Lemma value_skip d w b : ws w -> read_value d (w ++ b) = read_value d b.
Proof. intros H. destruct d; simpl; by rewrite skip_ws_app. Qed.
Lemma is_n2b k n : n < 256 -> is (n2b n) k = (n =? k).
Proof. intros H. unfold is. by rewrite b2n_n2b, N.mod_small. Qed.
Lemma is_false c k : b2n c <> k -> is c k = false.
Proof. intros H. by apply N.eqb_neq. Qed.

(** ** Strings *)
Lemma group_div a b : b < 64 -> (64 * a + b) / 64 = a /\ (64 * a + b) mod 64 = b.
Proof. intros H. split; symmetry; [eapply N.div_unique|eapply N.mod_unique]; eauto; lia. Qed.
Lemma utf8_spec n s : encodes n s <-> n < 0x200000 /\ s = utf8 n.
Proof.
  unfold utf8, str. split.
  - destruct 1 as [n H|a b Ha Hb H|a b c Ha Hb Hc H|a b c d Ha Hb Hc Hd H].
    + split; [lia|]. by rewrite (proj2 (N.ltb_lt n 128)) by lia.
    + split; [lia|]. rewrite (proj2 (N.ltb_ge _ 128)), (proj2 (N.ltb_lt _ 2048)) by lia. destruct (group_div a b Hb) as [-> ->]. done.
    + split; [lia|]. rewrite (proj2 (N.ltb_ge _ 128)), (proj2 (N.ltb_ge _ 2048)), (proj2 (N.ltb_lt _ 65536)) by lia.
      change 4096 with (64 * 64). rewrite <- !N.div_div by lia. replace (64 * 64 * a + 64 * b + c) with (64 * (64 * a + b) + c) by lia.
      destruct (group_div (64 * a + b) c Hc) as [-> ->]. destruct (group_div a b Hb) as [-> ->]. done.
    + split; [lia|]. rewrite (proj2 (N.ltb_ge _ 128)), (proj2 (N.ltb_ge _ 2048)), (proj2 (N.ltb_ge _ 65536)) by lia.
      change 262144 with (64 * 64 * 64). change 4096 with (64 * 64). rewrite <- !N.div_div by lia. replace (64 * 64 * 64 * a + 64 * 64 * b + 64 * c + d) with (64 * (64 * (64 * a + b) + c) + d) by lia.
      destruct (group_div (64 * (64 * a + b) + c) d Hd) as [-> ->]. destruct (group_div (64 * a + b) c Hc) as [-> ->]. destruct (group_div a b Hb) as [-> ->]. done.
  - intros [Hn ->]. pose proof (N.div_mod n 64 ltac:(lia)) as H1. pose proof (N.mod_lt n 64 ltac:(lia)) as L1.
    pose proof (N.div_mod (n / 64) 64 ltac:(lia)) as H2. pose proof (N.mod_lt (n / 64) 64 ltac:(lia)) as L2. rewrite N.div_div in H2 by lia. change (64 * 64) with 4096 in H2.
    pose proof (N.div_mod (n / 4096) 64 ltac:(lia)) as H3. pose proof (N.mod_lt (n / 4096) 64 ltac:(lia)) as L3. rewrite N.div_div in H3 by lia. change (4096 * 64) with 262144 in H3.
    destruct (N.ltb_spec n 128); [by constructor|]. destruct (N.ltb_spec n 2048); [rewrite H1 at 1; constructor; lia|].
    destruct (N.ltb_spec n 65536).
    + replace n with (4096 * (n / 4096) + 64 * ((n / 64) mod 64) + n mod 64) at 1 by lia. constructor; lia.
    + replace n with (262144 * (n / 262144) + 4096 * ((n / 4096) mod 64) + 64 * ((n / 64) mod 64) + n mod 64) at 1 by lia. constructor; lia.
Qed.
Lemma hex_value_spec c v : hex_is c v -> hex_value c = Some v /\ v < 16.
Proof.
  destruct 1 as [v H|v H H'|v H H']; unfold hex_value; rewrite b2n_n2b, N.mod_small by lia.
  - rewrite (proj2 (N.leb_le 48 (48 + v))), (proj2 (N.leb_le (48 + v) 57)) by lia. simpl. split; [f_equal|]; lia.
  - rewrite (proj2 (N.leb_gt (87 + v) 57)), (proj2 (N.leb_le 97 (87 + v))), (proj2 (N.leb_le (87 + v) 102)) by lia. rewrite andb_false_r. simpl. split; [f_equal|]; lia.
  - rewrite (proj2 (N.leb_gt (55 + v) 57)), (proj2 (N.leb_gt 97 (55 + v))), (proj2 (N.leb_le 65 (55 + v))), (proj2 (N.leb_le (55 + v) 70)) by lia.
    rewrite andb_false_r. simpl. split; [f_equal|]; lia.
Qed.
Lemma unit_spec t n : code_unit t n -> exists a b c d, t = str [92; 117] ++ [a; b; c; d] /\ hex4 a b c d = Some n.
Proof.
  intros (a & b & c & d & w & x & y & z & -> & Ha & Hb & Hc & Hd & ->). exists a, b, c, d. split; [done|].
  apply hex_value_spec in Ha as [Ha _], Hb as [Hb _], Hc as [Hc _], Hd as [Hd _]. unfold hex4. by rewrite Ha, Hb, Hc, Hd.
Qed.
Lemma read_code a b c d n r s r' : hex4 a b c d = Some n -> n < 0xD800 \/ 0xDFFF < n -> read_str r = Some (s, r') ->
  read_str ((str [92; 117] ++ [a; b; c; d]) ++ r) = Some (utf8 n ++ s, r').
Proof.
  intros H Hn Hr.
  change (match hex4 a b c d with
          | None => None
          | Some n => if (0xDC00 <=? n) && (n <=? 0xDFFF) then None else if (0xD800 <=? n) && (n <=? 0xDBFF) then
                      match r with
                      | x :: y :: k1 :: k2 :: k3 :: k4 :: b4 =>
                          if is x 92 && is y 117 then
                            match hex4 k1 k2 k3 k4 with
                            | Some m => if (0xDC00 <=? m) && (m <=? 0xDFFF) then '(s, r) ← read_str b4; Some (utf8 (65536 + 1024 * (n - 0xD800) + (m - 0xDC00)) ++ s, r) else None
                            | None => None
                            end
                          else None
                      | _ => None
                      end
                      else '(s, r) ← read_str r; Some (utf8 n ++ s, r)
          end = Some (utf8 n ++ s, r')).
  rewrite H. replace ((56320 <=? n) && (n <=? 57343)) with false; [|symmetry; apply andb_false_iff; rewrite !N.leb_gt; lia].
  replace ((55296 <=? n) && (n <=? 56319)) with false; [|symmetry; apply andb_false_iff; rewrite !N.leb_gt; lia]. eapply bind_some; [exact Hr|done].
Qed.
Lemma read_pair a b c d a' b' c' d' n m r s r' : hex4 a b c d = Some (0xD800 + n) -> hex4 a' b' c' d' = Some (0xDC00 + m) -> n < 1024 -> m < 1024 ->
  read_str r = Some (s, r') ->
  read_str (((str [92; 117] ++ [a; b; c; d]) ++ (str [92; 117] ++ [a'; b'; c'; d'])) ++ r) = Some (utf8 (65536 + 1024 * n + m) ++ s, r').
Proof.
  intros H H' Hn Hm Hr.
  change (match hex4 a b c d with
          | None => None
          | Some n' => if (0xDC00 <=? n') && (n' <=? 0xDFFF) then None else if (0xD800 <=? n') && (n' <=? 0xDBFF) then
                          match hex4 a' b' c' d' with
                          | Some m' => if (0xDC00 <=? m') && (m' <=? 0xDFFF) then '(s, r) ← read_str r; Some (utf8 (65536 + 1024 * (n' - 0xD800) + (m' - 0xDC00)) ++ s, r) else None
                          | None => None
                          end
                      else '(s, r) ← read_str ((str [92; 117] ++ [a'; b'; c'; d']) ++ r); Some (utf8 n' ++ s, r)
          end = Some (utf8 (65536 + 1024 * n + m) ++ s, r')).
  rewrite H, H'. replace ((56320 <=? 55296 + n) && (55296 + n <=? 57343)) with false; [|symmetry; apply andb_false_iff; rewrite !N.leb_gt; lia].
  replace ((55296 <=? 55296 + n) && (55296 + n <=? 56319)) with true; [|symmetry; apply andb_true_iff; rewrite !N.leb_le; lia].
  replace ((56320 <=? 56320 + m) && (56320 + m <=? 57343)) with true; [|symmetry; apply andb_true_iff; rewrite !N.leb_le; lia].
  eapply bind_some; [exact Hr|]. cbv beta iota. do 4 f_equal; lia.
Qed.
Lemma read_char s t r s' r' : char_text s t -> read_str r = Some (s', r') -> read_str (t ++ r) = Some (s ++ s', r').
Proof.
  intros [c H1 H2 H3|e n He|u n x Hu Hn [_ ->]%utf8_spec|u w n m x Hu Hw Hn Hm [_ ->]%utf8_spec] Hr.
  - simpl. rewrite !is_false by done. rewrite (proj2 (N.ltb_ge _ _)) by done. by rewrite Hr.
  - repeat (apply elem_of_cons in He as [He|He]; [injection He as -> ->; cbn; by rewrite Hr|]). by apply elem_of_nil in He.
  - apply unit_spec in Hu as (a & b & c & d & -> & H4). by eapply read_code.
  - apply unit_spec in Hu as (a & b & c & d & -> & H4), Hw as (a' & b' & c' & d' & -> & H4'). by eapply read_pair.
Qed.
Lemma read_chars s u r : chars_text s u -> read_str (u ++ str [34] ++ r) = Some (s, r).
Proof.
  induction 1 as [|s t s' t' H Hs IH]; [done|]. rewrite <- (assoc_L (++)). by eapply read_char.
Qed.

(** ** Numbers *)
Definition tail_ok (r : bytes) : Prop :=
  match r with [] => True | c :: _ => is_digit c = false /\ b2n c <> 46 /\ b2n c <> 101 /\ b2n c <> 69 end.
Lemma take_digits_app x r : Forall (fun b => 48 <= b2n b <= 57) x -> tail_ok r -> take_digits (x ++ r) = (x, r).
Proof.
  intros Hx Hr. induction Hx as [|c x Hc Hx IH]; simpl.
  - destruct r as [|c r]; [done|]. simpl. by destruct Hr as [-> _].
  - unfold is_digit. rewrite (proj2 (N.leb_le 48 (b2n c))), (proj2 (N.leb_le (b2n c) 57)) by lia. simpl. by rewrite IH.
Qed.
Lemma value_decimal t n : decimal t n -> digits_value t = n.
Proof.
  induction 1 as [d Hd|s n d Hs IH Hd]; unfold digits_value in *.
  - simpl. rewrite b2n_n2b, N.mod_small by lia. lia.
  - rewrite foldl_app. simpl. rewrite IH, b2n_n2b, N.mod_small by lia. lia.
Qed.
Lemma frac_none r : tail_ok r -> frac_exp r = Some (false, r).
Proof.
  unfold frac_exp. destruct r as [|c r]; [done|]. intros (_ & H1 & H2 & H3). rewrite (is_false c 46) by done. simpl.
  rewrite (is_false c 101), (is_false c 69) by done. done.
Qed.
Lemma read_prints t n r : prints t n -> n < 2 ^ 64 -> tail_ok r -> read_number (t ++ r) = Some (JNat n, r).
Proof.
  intros [Hd Hp] Hn Hr. destruct (decimal_bytes _ _ Hd) as [Hne Hb]. pose proof (value_decimal _ _ Hd) as Hv.
  assert (read_nat_part (t ++ r) = Some (t, r)) as Hpart.
  { unfold read_nat_part. rewrite take_digits_app by done. destruct t as [|c [|c' t]]; [done|done|].
    destruct (is c 48) eqn:E; [|done]. unfold is in E. apply N.eqb_eq in E. simpl in Hp.
    destruct Hp as [_ Hp]; [|done]. f_equal. apply b2n_inj. rewrite E. done. }
  unfold read_number. destruct t as [|c t]; [done|]. simpl app in *. apply Forall_cons in Hb as [Hc _].
  rewrite (is_false c 45) by lia. rewrite Hpart. simpl. rewrite frac_none by done. simpl. rewrite Hv. apply N.ltb_lt in Hn. change (2 ^ 64) with 18446744073709551616 in *. by rewrite Hn.
Qed.

(** ** Values *)
Definition starts (t : bytes) : Prop := exists c t', t = c :: t' /\ ~ white c /\ b2n c <> 93.
Lemma dedup_id l : NoDup l.*1 -> dedup l = l.
Proof.
  induction l as [|[k v] l IH]; [done|]. rewrite fmap_cons. intros [H1 H2]%NoDup_cons. simpl.
  destruct (existsb _ l) eqn:E; [|by rewrite IH]. exfalso. apply existsb_exists in E as ([k' v'] & Hin & Hk). apply bool_decide_eq_true in Hk. simpl in Hk. subst.
  apply H1. apply elem_of_list_fmap. exists (k, v'). split; [done|]. by apply elem_of_list_In.
Qed.
Lemma starts_prints t n : prints t n -> exists c t', t = c :: t' /\ 48 <= b2n c <= 57.
Proof.
  intros [Hd _]. apply decimal_bytes in Hd as [Hne Hb]. destruct t as [|c t]; [done|]. apply Forall_cons in Hb as [Hc _]. by exists c, t.
Qed.
Lemma json_starts v t : json_text v t -> starts t.
Proof.
  assert (forall n t', n < 256 -> n <> 32 -> n <> 9 -> n <> 10 -> n <> 13 -> n <> 93 -> starts (n2b n :: t')) as Hs.
  { intros n t' H. intros. exists (n2b n), t'. split; [done|]. unfold white. rewrite !b2n_n2b, !N.mod_small by done. lia. }
  destruct 1 as [| | |n t Hp Hn|s t (u & Hu & ->)| | | |]; try (by apply Hs).
  apply starts_prints in Hp as (c & t' & -> & Hc). exists c, t'. split; [done|]. unfold white. lia.
Qed.
Lemma len_items l t : items_text l t -> (length l <= length t)%nat.
Proof.
  induction 1 as [v t w w' Hv|v t w w' l t' Hv _ _ Hl IH]; apply json_starts in Hv as (c & t0 & -> & _); rewrite !app_length; simpl; [lia|].
  lia.
Qed.
Lemma len_entries l t : entries_text l t -> (length l <= length t)%nat.
Proof.
  induction 1; rewrite !app_length; simpl; lia.
Qed.
Lemma ws_close w n r : ws w -> n < 256 -> n <> 32 -> n <> 9 -> n <> 10 -> n <> 13 -> skip_ws (w ++ n2b n :: r) = n2b n :: r.
Proof.
  intros Hw Hn. intros. rewrite skip_ws_app by done. apply skip_ws_stop. unfold white. rewrite b2n_n2b, N.mod_small by done. lia.
Qed.
Lemma tail_ws w n r : ws w -> n < 256 -> (n < 48 \/ 57 < n) -> n <> 46 -> n <> 101 -> n <> 69 -> tail_ok (w ++ n2b n :: r).
Proof.
  intros Hw Hn. intros. destruct Hw as [|c w Hc Hw]; simpl.
  - unfold is_digit. rewrite b2n_n2b, N.mod_small by done. split; [|done].
    destruct (N.leb_spec 48 n), (N.leb_spec n 57); try done; lia.
  - unfold is_digit. unfold white in Hc. split; [|lia]. destruct (N.leb_spec 48 (b2n c)), (N.leb_spec (b2n c) 57); try done; lia.
Qed.
Section induction.
  Definition reads (v : json) (t : bytes) : Prop :=
    forall d r, (nesting v <= d)%nat -> tail_ok r -> read_value d (t ++ r) = Some (v, r).
  Definition reads_items (l : list json) (t : bytes) : Prop :=
    forall d f r, Forall (fun v => nesting v <= d)%nat l -> (length l < f)%nat ->
      read_items (read_value d) f true (t ++ str [93] ++ r) = Some (l, r) /\ read_items (read_value d) f false (str [44] ++ t ++ str [93] ++ r) = Some (l, r).
  Definition reads_entries (l : list (bytes * json)) (t : bytes) : Prop :=
    forall d f r, Forall (fun e => nesting e.2 <= d)%nat l -> (length l < f)%nat ->
      read_entries (read_value d) f true (t ++ str [125] ++ r) = Some (l, r) /\ read_entries (read_value d) f false (str [44] ++ t ++ str [125] ++ r) = Some (l, r).
  (** One element, then whatever makes the rest read. *)
  Lemma item_step v t w rd f r l r' : starts t -> ws w -> rd (t ++ r) = Some (v, r) -> read_items rd f false r = Some (l, r') ->
    read_items rd (S f) true (w ++ t ++ r) = Some (v :: l, r') /\ read_items rd (S f) false (str [44] ++ w ++ t ++ r) = Some (v :: l, r').
  Proof.
    intros (c & t' & -> & Hc & H93) Hw Hrd Hl. simpl app in *.
    assert (skip_ws (w ++ c :: t' ++ r) = c :: t' ++ r) as Hs by (rewrite skip_ws_app by done; by apply skip_ws_stop).
    split.
    - cbn [read_items]. rewrite Hs. rewrite (is_false c 93) by done. cbn -[app]. eapply bind_some; [exact Hrd|]. by eapply bind_some; [exact Hl|].
    - change (str [44] ++ w ++ c :: t' ++ r) with (n2b 44 :: w ++ c :: t' ++ r). cbn [read_items]. rewrite (skip_ws_stop (n2b 44)) by (intros [H|[H|[H|H]]]; done).
      cbn -[skip_ws app]. rewrite Hs. rewrite (is_false c 93) by done. eapply bind_some; [reflexivity|]. eapply bind_some; [exact Hrd|]. by eapply bind_some; [exact Hl|].
  Qed.
  Lemma items_end rd f w r : ws w -> read_items rd (S f) false (w ++ str [93] ++ r) = Some ([], r).
  Proof. intros Hw. cbn [read_items]. change (w ++ str [93] ++ r) with (w ++ n2b 93 :: r). rewrite (ws_close w 93 r) by done. done. Qed.
  Lemma entries_end rd f w r : ws w -> read_entries rd (S f) false (w ++ str [125] ++ r) = Some ([], r).
  Proof. intros Hw. cbn [read_entries]. change (w ++ str [125] ++ r) with (w ++ n2b 125 :: r). rewrite (ws_close w 125 r) by done. done. Qed.
  Lemma entry_step k v tk t w1 w2 w3 rd f r l r' : str_text k tk -> starts t -> ws w1 -> ws w2 -> rd (w3 ++ t ++ r) = Some (v, r) ->
    read_entries rd f false r = Some (l, r') ->
    read_entries rd (S f) true (w1 ++ tk ++ w2 ++ str [58] ++ w3 ++ t ++ r) = Some ((k, v) :: l, r') /\
    read_entries rd (S f) false (str [44] ++ w1 ++ tk ++ w2 ++ str [58] ++ w3 ++ t ++ r) = Some ((k, v) :: l, r').
  Proof.
    intros (u & Hu & ->) Ht Hw1 Hw2 Hrd Hl. rewrite <- !(assoc_L (++)).
    set (rest := w2 ++ str [58] ++ w3 ++ t ++ r).
    assert (skip_ws (w1 ++ str [34] ++ u ++ str [34] ++ rest) = n2b 34 :: u ++ str [34] ++ rest) as Hs by (by apply (ws_close w1 34)).
    pose proof (read_chars k u rest Hu) as Hk. assert (skip_ws rest = n2b 58 :: w3 ++ t ++ r) as Hr by (by apply (ws_close w2 58)).
    split.
    - cbn [read_entries]. rewrite Hs. cbn -[read_str skip_ws str app]. eapply bind_some; [exact Hk|]. cbn -[skip_ws str app]. rewrite Hr. cbn -[app]. eapply bind_some; [exact Hrd|]. by eapply bind_some; [exact Hl|].
    - change (str [44] ++ w1 ++ str [34] ++ u ++ str [34] ++ rest) with (n2b 44 :: (w1 ++ str [34] ++ u ++ str [34] ++ rest)). cbn [read_entries].
      rewrite (skip_ws_stop (n2b 44)) by (intros [H|[H|[H|H]]]; done). cbn -[read_str skip_ws str app]. cbn -[read_str skip_ws str app] in Hs. rewrite Hs. eapply bind_some; [reflexivity|].
      cbv beta iota. change (is (n2b 34) 34) with true. cbv iota. eapply bind_some; [exact Hk|]. cbn -[skip_ws str app]. rewrite Hr. cbn -[app]. eapply bind_some; [exact Hrd|]. by eapply bind_some; [exact Hl|].
  Qed.
  Lemma reads_all : (forall v t, json_text v t -> reads v t) /\ (forall l t, items_text l t -> reads_items l t) /\ (forall l t, entries_text l t -> reads_entries l t).
  Proof.
    apply json_text_ind3.
    - intros d r _ _. by destruct d.
    - intros d r _ _. by destruct d.
    - intros d r _ _. by destruct d.
    - intros n t Hp Hn d r _ Hr. pose proof (read_prints t n r Hp Hn Hr) as H. apply starts_prints in Hp as (c & t' & -> & Hc).
      simpl app in *. assert (forall b, is c b = true -> 48 <= b <= 57) as Hi by (intros b <-%N.eqb_eq; done).
      assert (is_ws c = false) as Hw. { destruct (is_ws c) eqn:E; [|done]. apply white_is in E. unfold white in E. lia. }
      destruct d; simpl; rewrite Hw; rewrite (is_false c 110), (is_false c 116), (is_false c 102), (is_false c 34), (is_false c 91), (is_false c 123) by lia;
        (replace (is c 45 || is_digit c) with true; [done|]); symmetry; apply orb_true_iff; right; unfold is_digit; apply andb_true_iff; split; apply N.leb_le; lia.
    - intros s t (u & Hu & ->) d r _ _. rewrite <- !(assoc_L (++)). pose proof (read_chars s u r Hu) as H.
      change (str [34] ++ u ++ str [34] ++ r) with (n2b 34 :: u ++ str [34] ++ r).
      destruct d; (eapply bind_some; [exact H|done]).
    - intros w Hw d r Hd _. destruct d as [|d]; [simpl in Hd; lia|]. rewrite <- !(assoc_L (++)). 
      change (str [91] ++ w ++ str [93] ++ r) with (n2b 91 :: w ++ n2b 93 :: r). cbn -[read_items app].
      eapply bind_some; [cbn [read_items]; rewrite (ws_close w 93 r) by done; reflexivity|done].
    - intros l t Hne Hl IH d r Hd _. destruct d as [|d]; [simpl in Hd; lia|]. rewrite <- !(assoc_L (++)).
      destruct (IH d (S (length (t ++ str [93] ++ r))) r) as [H _].
      { clear -Hd. simpl in Hd. apply le_S_n in Hd. induction l as [|x l IH]; simpl in *; constructor; [lia|]. apply IH. lia. }
      { apply len_items in Hl. rewrite app_length. lia. }
      cbn -[read_items str app]. change (str [91] ++ t ++ str [93] ++ r) with (n2b 91 :: t ++ str [93] ++ r). cbn -[read_items str app]. eapply bind_some; [exact H|done].
    - intros w Hw d r Hd _. destruct d as [|d]; [simpl in Hd; lia|]. rewrite <- !(assoc_L (++)).
      change (str [123] ++ w ++ str [125] ++ r) with (n2b 123 :: w ++ n2b 125 :: r). cbn -[read_entries app].
      eapply bind_some; [cbn [read_entries]; rewrite (ws_close w 125 r) by done; reflexivity|done].
    - intros l t Hne Hnd Hl IH d r Hd _. destruct d as [|d]; [simpl in Hd; lia|]. rewrite <- !(assoc_L (++)).
      destruct (IH d (S (length (t ++ str [125] ++ r))) r) as [H _].
      { clear -Hd. simpl in Hd. apply le_S_n in Hd. induction l as [|[k x] l IH]; simpl in *; constructor; [simpl; lia|]. apply IH. lia. }
      { apply len_entries in Hl. rewrite app_length. lia. }
      change (str [123] ++ t ++ str [125] ++ r) with (n2b 123 :: t ++ str [125] ++ r). cbn -[read_entries str app]. eapply bind_some; [exact H|]. cbv beta iota. do 3 f_equal. by apply dedup_id.
    - intros v t w w' Hv IH Hw Hw' d f r Hd Hf. destruct f as [|[|f]]; [simpl in Hf; lia..|]. rewrite <- !(assoc_L (++)).
      apply Forall_cons in Hd as [Hd _]. apply (item_step v t w).
      + by eapply json_starts.
      + done.
      + apply IH; [done|]. apply (tail_ws w' 93); try done; lia.
      + by apply items_end.
    - intros v t w w' l t' Hv IHv Hw Hw' Hl IHl d f r Hd Hf. destruct f as [|f]; [simpl in Hf; lia|]. apply Forall_cons in Hd as [Hd Hd'].
      destruct (IHl d f r) as [_ Hr]; [done|simpl in Hf; lia|]. rewrite <- !(assoc_L (++)).
      apply (item_step v t w).
      + by eapply json_starts.
      + done.
      + apply IHv; [done|]. apply (tail_ws w' 44); try done; lia.
      + destruct f as [|f]; [simpl in Hf; lia|]. revert Hr. simpl read_items. by rewrite !(skip_ws_app w').
    - intros k v tk t w1 w2 w3 w4 Hk Hv IH Hw1 Hw2 Hw3 Hw4 d f r Hd Hf. destruct f as [|[|f]]; [simpl in Hf; lia..|]. rewrite <- !(assoc_L (++)).
      apply Forall_cons in Hd as [Hd _]. apply (entry_step k v tk t w1 w2 w3); try done.
      + by eapply json_starts.
      + rewrite value_skip by done. apply IH; [done|]. apply (tail_ws w4 125); try done; lia.
      + by apply entries_end.
    - intros k v tk t w1 w2 w3 w4 l t' Hk Hv IHv Hw1 Hw2 Hw3 Hw4 Hl IHl d f r Hd Hf. destruct f as [|f]; [simpl in Hf; lia|]. apply Forall_cons in Hd as [Hd Hd'].
      destruct (IHl d f r) as [_ Hr]; [done|simpl in Hf; lia|]. rewrite <- !(assoc_L (++)).
      apply (entry_step k v tk t w1 w2 w3); try done.
      + by eapply json_starts.
      + rewrite value_skip by done. apply IHv; [done|]. apply (tail_ws w4 44); try done; lia.
      + destruct f as [|f]; [simpl in Hf; lia|]. revert Hr. simpl read_entries. by rewrite !(skip_ws_app w4).
  Qed.
End induction.
Lemma read_text v t d r : json_text v t -> (nesting v <= d)%nat -> tail_ok r -> read_value d (t ++ r) = Some (v, r).
Proof. intros H. by apply reads_all. Qed.

(** ** Printing *)
Lemma print_nat_prints n : prints (print_nat n) n.
Proof.
  unfold print_nat. destruct (N.eqb_spec n 0) as [->|H0].
  { split; [apply (dec_one 0); lia|done]. }
  assert (forall n, n <> 0 -> decimal (JsonModel.digit <$> reverse (radix 10 n)) n) as Hd.
  { intros m. apply (radix_ind (fun m => m <> 0 -> decimal (JsonModel.digit <$> reverse (radix 10 m)) m) 10); [lia|done|]. clear m.
    intros m Hm IH _. rewrite radix_step by (done || lia). rewrite reverse_cons, fmap_app. simpl.
    assert (m mod 10 < 10) as Hl by (by apply N.mod_lt). destruct (decide (m / 10 = 0)) as [Hz|Hz].
    - rewrite Hz. pose proof (N.div_mod m 10). replace m with (m mod 10) at 2 by lia. apply dec_one. done.
    - replace m with (10 * (m / 10) + m mod 10) at 3 by (pose proof (N.div_mod m 10); lia). apply dec_snoc; auto. }
  split; [by apply Hd|]. pose proof (radix_ends 10 n ltac:(lia)) as He. pose proof (radix_small 10 n ltac:(lia)) as Hs. unfold ends_ok in He.
  rewrite <- (reverse_involutive (radix 10 n)) in He, Hs. destruct (reverse (radix 10 n)) as [|d l]; [done|]. simpl. intros [= H].
  rewrite reverse_cons, last_snoc in He. apply Forall_reverse in Hs. rewrite reverse_involutive in Hs. apply Forall_cons in Hs as [Hs _].
  apply (f_equal b2n) in H. unfold JsonModel.digit in H. rewrite !b2n_n2b, !N.mod_small in H by lia. exfalso. apply He. f_equal. lia.
Qed.
Lemma print_char_text c : char_text [c] (print_char c).
Proof.
  unfold print_char. rewrite <- (n2b_b2n c) at 1. pose proof (b2n_lt c) as Hb.
  destruct (N.eqb_spec (b2n c) 34) as [->|H1]; [apply ch_short; set_solver|].
  destruct (N.eqb_spec (b2n c) 92) as [->|H2]; [apply ch_short; set_solver|].
  destruct (N.eqb_spec (b2n c) 8) as [->|H3]; [apply (ch_short 98 8); set_solver|].
  destruct (N.eqb_spec (b2n c) 9) as [->|H4]; [apply (ch_short 116 9); set_solver|].
  destruct (N.eqb_spec (b2n c) 10) as [->|H5]; [apply (ch_short 110 10); set_solver|].
  destruct (N.eqb_spec (b2n c) 12) as [->|H6]; [apply (ch_short 102 12); set_solver|].
  destruct (N.eqb_spec (b2n c) 13) as [->|H7]; [apply (ch_short 114 13); set_solver|].
  destruct (N.ltb_spec (b2n c) 32) as [H8|H8].
  - replace [n2b (b2n c)] with (utf8 (b2n c)) by (unfold utf8; by rewrite (proj2 (N.ltb_lt (b2n c) 128)) by lia).
    apply (ch_code _ (b2n c)); [|lia|apply utf8_spec; split; [lia|done]].
    assert (forall v, v < 16 -> hex_is (hex_digit v) v) as Hh.
    { intros v Hv. unfold hex_digit. destruct (N.ltb_spec v 10); [by constructor|by apply hex_low]. }
    exists (n2b 48), (n2b 48), (hex_digit (b2n c / 16)), (hex_digit (b2n c mod 16)), 0, 0, (b2n c / 16), (b2n c mod 16).
    split; [done|]. split; [apply (hex_dec 0); lia|]. split; [apply (hex_dec 0); lia|].
    split; [apply Hh, N.div_lt_upper_bound; lia|]. split; [by apply Hh, N.mod_lt|]. pose proof (N.div_mod (b2n c) 16). lia.
  - rewrite n2b_b2n. by apply ch_raw.
Qed.
Lemma print_str_text s : str_text s (print_str s).
Proof.
  exists (s ≫= print_char). split; [|done]. induction s as [|c s IH]; [constructor|]. simpl. apply (cs_cons [c]); [apply print_char_text|done].
Qed.
(** What can be printed: numbers that fit, objects without a double key. *)
Inductive writable : json -> Prop :=
| wr_null : writable JNull
| wr_bool b : writable (JBool b)
| wr_nat n : n < 2 ^ 64 -> writable (JNat n)
| wr_str s : writable (JStr s)
| wr_arr l : Forall writable l -> writable (JArr l)
| wr_obj l : NoDup l.*1 -> Forall (fun e => writable e.2) l -> writable (JObj l).
Fixpoint json_nest (P : json -> Prop) (Hn : P JNull) (Hb : forall b, P (JBool b)) (Hm : forall n, P (JNat n)) (Hx : P JNum) (Hs : forall s, P (JStr s))
    (Ha : forall l, Forall P l -> P (JArr l)) (Ho : forall l, Forall (fun e => P e.2) l -> P (JObj l)) (v : json) : P v :=
  match v with
  | JNull => Hn | JBool b => Hb b | JNat n => Hm n | JNum => Hx | JStr s => Hs s
  | JArr l => Ha l ((fix go l : Forall P l := match l with [] => Forall_nil_2 _ | x :: l' => Forall_cons_2 _ _ _ (json_nest P Hn Hb Hm Hx Hs Ha Ho x) (go l') end) l)
  | JObj l => Ho l ((fix go l : Forall (fun e : bytes * json => P e.2) l := match l with [] => Forall_nil_2 _ | (k, x) :: l' => Forall_cons_2 _ _ _ (json_nest P Hn Hb Hm Hx Hs Ha Ho x : (fun e : bytes * json => P e.2) (k, x)) (go l') end) l)
  end.
Lemma print_text v : writable v -> json_text v (print_json v).
Proof.
  induction v as [|b|n| |s|l IH|l IH] using json_nest; intros Hw; inversion Hw as [|?|? Hn|?|? Hl|? Hd Hl]; subst; simpl.
  - constructor.
  - destruct b; constructor.
  - constructor; [apply print_nat_prints|done].
  - constructor. apply print_str_text.
  - destruct l as [|x l]; [apply (jt_arr0 []); constructor|]. apply jt_arr; [done|]. clear Hw. revert x IH Hl.
    induction l as [|y l IHl]; intros x [Hx IH]%Forall_cons [Wx Wl]%Forall_cons.
    + simpl. pose proof (it_one x (print_json x) [] [] (Hx Wx) (Forall_nil_2 _) (Forall_nil_2 _)) as H. simpl in H. by rewrite app_nil_r in H.
    + pose proof (it_more x (print_json x) [] [] (y :: l) _ (Hx Wx) (Forall_nil_2 _) (Forall_nil_2 _) (IHl y IH Wl)) as H. simpl in H. rewrite app_nil_r in H. exact H.
  - destruct l as [|x l]; [apply (jt_obj0 []); constructor|]. apply jt_obj; [done|done|]. clear Hw Hd. revert x IH Hl.
    induction l as [|y l IHl]; intros [k v] [Hx IH]%Forall_cons [Wx Wl]%Forall_cons.
    + pose proof (et_one k v (print_str k) (print_json v) [] [] [] [] (print_str_text k) (Hx Wx) (Forall_nil_2 _) (Forall_nil_2 _) (Forall_nil_2 _) (Forall_nil_2 _)) as H.
      simpl in H. rewrite app_nil_r in H. exact H.
    + pose proof (et_more k v (print_str k) (print_json v) [] [] [] [] (y :: l) _ (print_str_text k) (Hx Wx) (Forall_nil_2 _) (Forall_nil_2 _) (Forall_nil_2 _) (Forall_nil_2 _) (IHl y IH Wl)) as H.
      simpl in H. rewrite app_nil_r in H. exact H.
Qed.

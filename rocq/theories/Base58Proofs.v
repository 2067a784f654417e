(** Base58 is lossless; every key has a text of at most 44 characters that reads back as the key. *)
From Verif Require Import Base DataModel Base58Model.
#[local] Arguments le : simpl never.
#[local] Arguments unle : simpl never.

Lemma radix_fuel f f' b n : 2 <= b -> n < 2 ^ N.of_nat f -> n < 2 ^ N.of_nat f' -> digits_fuel f b n = digits_fuel f' b n.
Proof.
  intros Hb. revert f' n. induction f as [|f IH]; intros [|f'] n H H'; simpl; [done| | |].
  - change (2 ^ N.of_nat 0) with 1 in H. by destruct (N.eqb_spec n 0); [|lia].
  - change (2 ^ N.of_nat 0) with 1 in H'. by destruct (N.eqb_spec n 0); [|lia].
  - destruct (N.eqb_spec n 0); [done|]. f_equal. rewrite Nat2N.inj_succ, N.pow_succ_r' in H, H'.
    assert (n / b <= n / 2) by (apply N.div_le_compat_l; lia). assert (n / 2 < 2 ^ N.of_nat f) by (apply N.div_lt_upper_bound; lia).
    assert (n / 2 < 2 ^ N.of_nat f') by (apply N.div_lt_upper_bound; lia). apply IH; lia.
Qed.
Lemma size_bound n : n < 2 ^ N.of_nat (N.size_nat n).
Proof.
  destruct n as [|p]; [done|]. simpl. induction p as [p IH|p IH|]; simpl; rewrite ?Nat2N.inj_succ, ?N.pow_succ_r'; [lia..|done].
Qed.
Lemma radix_step b n : 2 <= b -> n <> 0 -> radix b n = n mod b :: radix b (n / b).
Proof.
  intros Hb Hn. unfold radix. pose proof (size_bound n) as Hs. destruct (N.size_nat n) as [|f] eqn:Hf; [change (2 ^ N.of_nat 0) with 1 in Hs; lia|].
  simpl. destruct (N.eqb_spec n 0); [done|]. f_equal. rewrite Nat2N.inj_succ, N.pow_succ_r' in Hs.
  apply radix_fuel; [done| |apply size_bound]. assert (n / b <= n / 2) by (apply N.div_le_compat_l; lia). assert (n / 2 < 2 ^ N.of_nat f) by (apply N.div_lt_upper_bound; lia). lia.
Qed.
Lemma radix_0 b : radix b 0 = [].
Proof. done. Qed.
Definition ends_ok (ds : list N) : Prop := last ds <> Some 0.
Lemma radix_ind (P : N -> Prop) b : 2 <= b -> P 0 -> (forall n, n <> 0 -> P (n / b) -> P n) -> forall n, P n.
Proof.
  intros Hb H0 Hs n. induction n as [n IH] using (well_founded_induction N.lt_wf_0). destruct (decide (n = 0)) as [->|Hn]; [done|].
  apply Hs; [done|]. apply IH. apply N.div_lt; lia.
Qed.
Lemma unradix_radix b n : 2 <= b -> unradix b (radix b n) = n.
Proof.
  intros Hb. revert n. apply (radix_ind _ b Hb); [done|intros n Hn IH]. rewrite radix_step by done. simpl. rewrite IH. pose proof (N.div_mod n b). lia.
Qed.
Lemma radix_small b n : 2 <= b -> Forall (fun d => d < b) (radix b n).
Proof. intros Hb. revert n. apply (radix_ind _ b Hb); [constructor|intros n Hn IH]. rewrite radix_step by done. constructor; [|done]. apply N.mod_lt. lia. Qed.
Lemma radix_ends b n : 2 <= b -> ends_ok (radix b n).
Proof.
  intros Hb. revert n. apply (radix_ind _ b Hb); [done|intros n Hn IH]. rewrite radix_step by done. unfold ends_ok in *.
  destruct (decide (n / b = 0)) as [H0|H0].
  - rewrite H0. simpl. apply N.div_small_iff in H0; [|lia]. rewrite N.mod_small by done. congruence.
  - rewrite last_cons. destruct (last (radix b (n / b))) eqn:Hl; [done|]. apply last_None in Hl. rewrite radix_step in Hl by done. done.
Qed.
Lemma radix_unradix b ds : 2 <= b -> Forall (fun d => d < b) ds -> ends_ok ds -> radix b (unradix b ds) = ds.
Proof.
  intros Hb Hd. induction Hd as [|d ds Hd _ IH]; intros He; [done|]. simpl.
  assert (ends_ok ds) as He' by (unfold ends_ok in *; rewrite last_cons in He; by destruct (last ds)).
  assert (d + b * unradix b ds <> 0) as Hn.
  { intros H0. assert (d = 0) as -> by lia. assert (unradix b ds = 0) as Hu by nia. specialize (IH He'). rewrite Hu in IH. rewrite radix_0 in IH. subst ds. by apply He. }
  rewrite radix_step by done. rewrite (N.mul_comm b), N.mod_add, N.div_add by lia. rewrite N.mod_small, N.div_small by done. rewrite N.add_0_l. f_equal. by apply IH.
Qed.
Lemma radix_length b n k : 2 <= b -> n < b ^ N.of_nat k -> (length (radix b n) <= k)%nat.
Proof.
  intros Hb. revert n. induction k as [|k IH]; intros n Hn.
  - change (b ^ N.of_nat 0) with 1 in Hn. assert (n = 0) as -> by lia. done.
  - destruct (decide (n = 0)) as [->|H0]; [simpl; lia|]. rewrite radix_step by done. simpl. apply le_n_S, IH. rewrite Nat2N.inj_succ, N.pow_succ_r' in Hn. apply N.div_lt_upper_bound; lia.
Qed.
Lemma unradix_app b x y : unradix b (x ++ y) = unradix b x + b ^ lenN x * unradix b y.
Proof.
  induction x as [|d x IH]; [unfold lenN; simpl; change (b ^ N.of_nat 0) with 1; lia|]. simpl. rewrite IH.
  replace (lenN (d :: x)) with (N.succ (lenN x)) by (unfold lenN; simpl length; lia). rewrite N.pow_succ_r'. lia.
Qed.
Lemma unradix_zeros b k : unradix b (replicate k 0) = 0.
Proof. induction k as [|k IH]; simpl; [done|]. rewrite IH. lia. Qed.
Lemma unle_unradix v : unle v = unradix 256 (b2n <$> v).
Proof. induction v as [|x v IH]; [done|]. rewrite fmap_cons. change (unle (x :: v)) with (b2n x + 256 * unle v). cbn [unradix]. by rewrite IH. Qed.

(** A list of digits is its leading zeros and a rest that does not start with one. *)
Lemma zeros_split l : exists l', l = replicate (zeros l) 0 ++ l' /\ head l' <> Some 0.
Proof.
  induction l as [|d l (l' & Hl & Hh)]; [by exists []|]. simpl. destruct (N.eqb_spec d 0) as [->|Hd].
  - exists l'. split; [simpl; by f_equal|done].
  - exists (d :: l). split; [done|]. simpl. congruence.
Qed.
Lemma zeros_app k l : head l <> Some 0 -> zeros (replicate k 0 ++ l) = k.
Proof. intros Hh. induction k as [|k IH]; simpl; [|by rewrite IH]. destruct l as [|d l]; [done|]. simpl. destruct (N.eqb_spec d 0) as [->|]; done. Qed.
Lemma rev_ends l : ends_ok (reverse l) <-> head l <> Some 0.
Proof. unfold ends_ok. rewrite last_reverse. done. Qed.
Lemma back b k l : 2 <= b -> Forall (fun d => d < b) l -> head l <> Some 0 -> reverse (radix b (unradix b (reverse (replicate k 0 ++ l)))) = l.
Proof.
  intros Hb Hl Hh. rewrite reverse_app, unradix_app. replace (reverse (replicate k 0)) with (replicate k 0) by (by rewrite reverse_replicate).
  rewrite unradix_zeros, N.mul_0_r, N.add_0_r. rewrite radix_unradix; [apply reverse_involutive|done| |by apply rev_ends].
  by apply Forall_reverse.
Qed.

Lemma symbol_value d : d < 58 -> b58_value (b58_symbol d) = Some d.
Proof.
  intros Hd. assert (forallb (fun k => bool_decide (b58_value (b58_symbol (N.of_nat k)) = Some (N.of_nat k))) (seq 0 58) = true) as H by (by vm_compute).
  rewrite forallb_forall in H. specialize (H (N.to_nat d)). rewrite N2Nat.id in H. apply bool_decide_eq_true in H; [done|]. apply in_seq. lia.
Qed.
Lemma value_symbol c d : b58_value c = Some d -> d < 58 /\ b58_symbol d = c.
Proof.
  unfold b58_value. destruct (list_find (eq c) b58_alphabet) as [[i x]|] eqn:E; [|done]. simpl. intros [= <-]. apply list_find_Some in E as (Hi & -> & _).
  split; [apply lookup_lt_Some in Hi; change (length b58_alphabet) with 58%nat in Hi; lia|]. unfold b58_symbol. by rewrite Nat2N.id, Hi.
Qed.
Lemma values_symbols ds : Forall (fun d => d < 58) ds -> mapM b58_value (b58_symbol <$> ds) = Some ds.
Proof. induction 1 as [|d ds Hd _ IH]; [done|]. rewrite fmap_cons. simpl. rewrite (symbol_value d Hd). simpl. by rewrite IH. Qed.
Lemma symbols_values s ds : mapM b58_value s = Some ds -> s = b58_symbol <$> ds /\ Forall (fun d => d < 58) ds.
Proof.
  intros H. apply mapM_Some in H. induction H as [|c d s ds Hc _ [IH1 IH2]]; [done|]. apply value_symbol in Hc as [Hd <-]. rewrite fmap_cons, <- IH1. split; [done|by constructor].
Qed.
Lemma bytes_small (v : bytes) : Forall (fun d => d < 256) (b2n <$> v).
Proof. apply Forall_fmap, Forall_forall. intros x _. apply b2n_lt. Qed.
Lemma bytes_back (l : list N) : Forall (fun d => d < 256) l -> b2n <$> (n2b <$> l) = l.
Proof. induction 1 as [|d l Hd _ IH]; [done|]. rewrite !fmap_cons, IH. f_equal. rewrite b2n_n2b. by apply N.mod_small. Qed.
Lemma n2bs (v : bytes) : n2b <$> (b2n <$> v) = v.
Proof. induction v as [|x v IH]; [done|]. rewrite !fmap_cons, IH. by rewrite n2b_b2n. Qed.
Lemma zeros_small k b : 2 <= b -> Forall (fun d => d < b) (replicate k 0).
Proof. intros Hb. apply Forall_replicate. lia. Qed.
Lemma rev_fmap {A B} (f : A -> B) l : reverse (f <$> l) = f <$> reverse l.
Proof. symmetry. apply fmap_reverse. Qed.

Lemma b58_round b : b58_decode (b58_encode b) = Some b.
Proof.
  unfold b58_decode, b58_encode. destruct (zeros_split (b2n <$> b)) as (l & Hl & Hh). pose proof (bytes_small b) as Hs. set (k := zeros (b2n <$> b)) in *.
  rewrite Hl in Hs. apply Forall_app in Hs as [_ Hs].
  assert (unle (reverse b) = unradix 256 (reverse (replicate k 0 ++ l))) as Hv by (rewrite unle_unradix, <- rev_fmap; by rewrite Hl at 1).
  rewrite values_symbols. 2:{ apply Forall_app. split; [by apply zeros_small|]. apply Forall_reverse, radix_small. done. }
  assert (head (reverse (radix 58 (unle (reverse b)))) <> Some 0) as Hh' by (apply rev_ends; rewrite reverse_involutive; by apply radix_ends).
  cbn [mbind option_bind]. rewrite zeros_app by done. f_equal. rewrite reverse_app, reverse_involutive, unradix_app.
  replace (reverse (replicate k 0)) with (replicate k 0) by (by rewrite reverse_replicate). rewrite unradix_zeros, N.mul_0_r, N.add_0_r.
  rewrite unradix_radix by done. rewrite Hv, back by done. rewrite <- Hl. apply n2bs.
Qed.
(** Decoding loses nothing either. *)
Lemma b58_back s b : b58_decode s = Some b -> b58_encode b = s.
Proof.
  unfold b58_decode, b58_encode. destruct (mapM b58_value s) as [ds|] eqn:Hm; [|done]. apply symbols_values in Hm as [-> Hds]. cbn [mbind option_bind]. intros [= <-].
  destruct (zeros_split ds) as (l & Hl & Hh). set (k := zeros ds) in *. assert (Forall (fun d => d < 58) l) as Hls by (rewrite Hl in Hds; by apply Forall_app in Hds as [_ ?]).
  set (x := reverse (radix 256 (unradix 58 (reverse ds)))).
  assert (Forall (fun d => d < 256) x) as Hx by (unfold x; apply Forall_reverse, radix_small; done).
  assert (head x <> Some 0) as Hxh by (apply rev_ends; unfold x; rewrite reverse_involutive; by apply radix_ends).
  rewrite bytes_back by (apply Forall_app; split; [by apply zeros_small|done]). rewrite zeros_app by done.
  rewrite unle_unradix, <- rev_fmap, bytes_back by (apply Forall_app; split; [by apply zeros_small|done]).
  rewrite reverse_app, unradix_app. replace (reverse (replicate k 0)) with (replicate k 0) by (by rewrite reverse_replicate). rewrite unradix_zeros, N.mul_0_r, N.add_0_r.
  unfold x. rewrite reverse_involutive, unradix_radix by done. f_equal. rewrite Hl at 2. f_equal. rewrite Hl at 1. by apply back.
Qed.
Lemma b58_length b k : (length b <= k)%nat -> forall m, (forall z, (z <= k)%nat -> 256 ^ N.of_nat (k - z) <= 58 ^ N.of_nat (m - z) /\ (z <= m)%nat) -> (length (b58_encode b) <= m)%nat.
Proof.
  intros Hk m Hm. unfold b58_encode. rewrite fmap_length, app_length, replicate_length, reverse_length. destruct (zeros_split (b2n <$> b)) as (l & Hl & Hh). set (z := zeros (b2n <$> b)) in *.
  pose proof (bytes_small b) as Hs. assert (length b = z + length l)%nat as Hlen by (rewrite <- (fmap_length b2n b), Hl, app_length, replicate_length; done).
  destruct (Hm z) as [Hp Hz]; [lia|]. assert (length (radix 58 (unle (reverse b))) <= m - z)%nat; [|lia]. apply radix_length; [done|].
  eapply N.lt_le_trans; [|exact Hp]. rewrite unle_unradix, <- rev_fmap, Hl, reverse_app, unradix_app.
  replace (reverse (replicate z 0)) with (replicate z 0) by (by rewrite reverse_replicate). rewrite unradix_zeros, N.mul_0_r, N.add_0_r.
  rewrite Hl in Hs. apply Forall_app in Hs as [_ Hs].
  assert (forall x, Forall (fun d => d < 256) x -> unradix 256 x < 256 ^ N.of_nat (length x)) as Hb.
  { clear. induction 1 as [|d x Hd _ IH]; [done|]. simpl. rewrite Nat2N.inj_succ, N.pow_succ_r'. nia. }
  eapply N.lt_le_trans; [apply Hb; by apply Forall_reverse|]. rewrite reverse_length. apply N.pow_le_mono_r; [done|]. lia.
Qed.
Lemma pk_text_length pk : (length (pk_text pk) <= 44)%nat.
Proof.
  apply (b58_length _ 32); [by rewrite le_length|]. intros z Hz.
  assert (forallb (fun z => (256 ^ N.of_nat (32 - z) <=? 58 ^ N.of_nat (44 - z)) && (z <=? 44)%nat) (seq 0 33) = true) as H by (by vm_compute).
  rewrite forallb_forall in H. specialize (H z). rewrite andb_true_iff, N.leb_le, Nat.leb_le in H. apply H. apply in_seq. lia.
Qed.
Lemma pk_round pk : pk < 2 ^ 256 -> pk_parse (pk_text pk) = Some pk.
Proof.
  intros H. unfold pk_parse. pose proof (pk_text_length pk). destruct (N.ltb_spec 44 (lenN (pk_text pk))) as [Hx|_]; [unfold lenN in Hx; lia|].
  unfold pk_text. rewrite b58_round. unfold lenN. rewrite le_length. change (N.of_nat 32 =? 32) with true. cbv iota. f_equal. by apply (unle_le_small 32).
Qed.
Lemma pk_parse_text s pk : pk_parse s = Some pk -> s = pk_text pk /\ pk < 2 ^ 256.
Proof.
  unfold pk_parse. destruct (_ <? _); [done|]. destruct (b58_decode s) as [b|] eqn:Hb; [|done]. destruct (N.eqb_spec (lenN b) 32) as [Hl|]; [|done]. intros [= <-].
  apply b58_back in Hb. unfold pk_text. split.
  - assert (length b = 32%nat) as He by (unfold lenN in Hl; lia). rewrite <- He, le_unle. done.
  - replace (2 ^ 256) with (256 ^ lenN b) by (by rewrite Hl). apply unle_lt.
Qed.

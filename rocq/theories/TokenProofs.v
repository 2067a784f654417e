(** Proofs about packed token accounts and the token account table. *)
From Verif Require Import Base DataModel TokenModel.
#[local] Arguments le : simpl never.
#[local] Arguments unle : simpl never.
#[local] Arguments take : simpl never.
#[local] Arguments drop : simpl never.

(** ** Packing *)
Definition ta_ok (t : token_account) : Prop :=
  ta_pubkey t < 2 ^ 256 /\ ta_owner t < 2 ^ 256 /\ ta_mint t < 2 ^ 32 /\ ta_amount t < 2 ^ 64 /\
  (forall d n, ta_delegate t = Some (d, n) -> d < 2 ^ 256 /\ n < 2 ^ 64) /\
  (forall n, ta_native t = Some n -> n < 2 ^ 64) /\ (forall p, ta_close t = Some p -> p < 2 ^ 256).

Definition header (t : token_account) : bytes :=
  [n2b (flag_bits t); if ta_deleted t then n2b 1 else n2b 0] ++
  le 32 (ta_pubkey t) ++ le 32 (ta_owner t) ++ le 4 (ta_mint t) ++ le 8 (ta_amount t).
Definition p_delegate (t : token_account) : bytes := match ta_delegate t with Some (d, n) => le 32 d ++ le 8 n | None => [] end.
Definition p_native (t : token_account) : bytes := match ta_native t with Some n => le 8 n | None => [] end.
Definition p_close (t : token_account) : bytes := match ta_close t with Some p => le 32 p | None => [] end.
Definition p_extra (t : token_account) : bytes := match ta_extra t with Some d => le 4 (lenN d) ++ d | None => [] end.
Lemma to_bytes_parts t : to_bytes t = header t ++ p_delegate t ++ p_native t ++ p_close t ++ p_extra t.
Proof. unfold to_bytes, header, p_delegate, p_native, p_close, p_extra. rewrite <- !app_assoc. done. Qed.
Lemma header_length t : length (header t) = 78%nat.
Proof. unfold header. rewrite !app_length, !le_length. done. Qed.
Lemma cut_app n (a b : bytes) : length a = n -> cut n (a ++ b) = Done (a, b).
Proof.
  intros <-. unfold cut. rewrite app_length. destruct (Nat.leb_spec (length a) (length a + length b)); [|lia].
  by rewrite take_app, drop_app.
Qed.
Lemma slice_mid a n (x y z : bytes) : length x = a -> length y = n -> take n (drop a (x ++ y ++ z)) = y.
Proof. intros <- <-. by rewrite drop_app, take_app. Qed.
Lemma slice_mid' a n (x y : bytes) : length x = a -> length y = n -> take n (drop a (x ++ y)) = y.
Proof. intros Hx Hy. rewrite <- (app_nil_r y) at 1. by apply slice_mid. Qed.

Lemma flags_small t : flag_bits t < 256.
Proof. destruct t as [[] ? ? ? ? ? [] [?|] [?|] [?|] [?|]]; done. Qed.
Lemma flag_program t : (N.land (flag_bits t) 1 =? 0) = bool_decide (ta_program t = TokenP).
Proof. destruct t as [[] ? ? ? ? ? [] [?|] [?|] [?|] [?|]]; done. Qed.
Lemma flag_program3 t p : (N.land (flag_bits t) 3 =? match p with TokenP => 0 | Token2022P => 1 end) = bool_decide (ta_program t = p).
Proof. destruct p, t as [[] ? ? ? ? ? [] [?|] [?|] [?|] [?|]]; done. Qed.
Lemma flag_state t : N.land (N.shiftr (flag_bits t) 2) 3 = match ta_state t with Init => 0 | Frozen => 1 | Uninit => 2 end.
Proof. destruct t as [[] ? ? ? ? ? [] [?|] [?|] [?|] [?|]]; done. Qed.
Lemma flag_delegate t : (N.land (N.shiftr (flag_bits t) 4) 1 =? 1) = bool_decide (is_Some (ta_delegate t)).
Proof. destruct t as [[] ? ? ? ? ? [] [?|] [?|] [?|] [?|]]; done. Qed.
Lemma flag_native t : (N.land (N.shiftr (flag_bits t) 5) 1 =? 1) = bool_decide (is_Some (ta_native t)).
Proof. destruct t as [[] ? ? ? ? ? [] [?|] [?|] [?|] [?|]]; done. Qed.
Lemma flag_close t : (N.land (N.shiftr (flag_bits t) 6) 1 =? 1) = bool_decide (is_Some (ta_close t)).
Proof. destruct t as [[] ? ? ? ? ? [] [?|] [?|] [?|] [?|]]; done. Qed.
Lemma flag_extra t : (N.land (N.shiftr (flag_bits t) 7) 1 =? 1) = bool_decide (is_Some (ta_extra t)).
Proof. destruct t as [[] ? ? ? ? ? [] [?|] [?|] [?|] [?|]]; done. Qed.

Lemma hdr_flags t : unle (take 1 (header t)) = flag_bits t.
Proof.
  unfold header. change (take 1 _) with [n2b (flag_bits t)]. unfold unle. rewrite b2n_n2b.
  rewrite N.mod_small by apply flags_small. lia.
Qed.
Lemma hdr_deleted t : unle (take 1 (drop 1 (header t))) = if ta_deleted t then 1 else 0.
Proof. unfold header. by destruct (ta_deleted t). Qed.
Lemma hdr_pubkey t : unle (take 32 (drop 2 (header t))) = ta_pubkey t mod 2 ^ 256.
Proof. unfold header. rewrite slice_mid by (by rewrite ?le_length). apply unle_le. Qed.
Lemma hdr_owner t : unle (take 32 (drop 34 (header t))) = ta_owner t mod 2 ^ 256.
Proof.
  unfold header. rewrite app_assoc, slice_mid; [apply unle_le|by rewrite app_length, le_length|by rewrite le_length].
Qed.
Lemma hdr_mint t : unle (take 4 (drop 66 (header t))) = ta_mint t mod 2 ^ 32.
Proof.
  unfold header. rewrite !app_assoc, <- (app_assoc _ (le 4 _)), slice_mid; [apply unle_le| |by rewrite le_length].
  by rewrite !app_length, !le_length.
Qed.
Lemma hdr_amount t : unle (take 8 (drop 70 (header t))) = ta_amount t mod 2 ^ 64.
Proof.
  unfold header. rewrite !app_assoc, slice_mid'; [apply unle_le| |by rewrite le_length].
  by rewrite !app_length, !le_length.
Qed.

(** What unpacking yields, whatever the ranges: fields truncated to their width. *)
Definition truncated (t : token_account) : token_account :=
  TokenAccount (ta_program t) (ta_deleted t) (ta_pubkey t mod 2 ^ 256) (ta_owner t mod 2 ^ 256) (ta_mint t mod 2 ^ 32)
    (ta_amount t mod 2 ^ 64) (ta_state t)
    (match ta_delegate t with Some (d, n) => Some (d mod 2 ^ 256, n mod 2 ^ 64) | None => None end)
    (match ta_native t with Some n => Some (n mod 2 ^ 64) | None => None end)
    (match ta_close t with Some p => Some (p mod 2 ^ 256) | None => None end)
    (match ta_extra t with Some d => Some (take (N.to_nat (lenN d mod 2 ^ 32)) d) | None => None end).
Lemma from_to t : from_bytes (to_bytes t) = Done (truncated t).
Proof.
  rewrite to_bytes_parts. unfold from_bytes. rewrite cut_app by apply header_length.
  change (mbind ?f (Done (?x, ?y))) with (f (x, y)). cbv beta iota zeta.
  rewrite hdr_flags, hdr_deleted, hdr_pubkey, hdr_owner, hdr_mint, hdr_amount.
  rewrite flag_program, flag_state, flag_delegate, flag_native, flag_close, flag_extra.
  unfold p_delegate, p_native, p_close, p_extra, truncated.
  assert (forall {A B} (f : A -> res B) x, mbind f (Done x) = f x) as Hb by done.
  destruct t as [pr del pk ow mi am ts de na cl ex]. cbn [ta_program ta_deleted ta_pubkey ta_owner ta_mint ta_amount ta_state ta_delegate ta_native ta_close ta_extra].
  replace (if _ =? 0 then Done Init else _) with (Done ts) by (by destruct ts). rewrite Hb.
  replace (if bool_decide (pr = TokenP) then TokenP else Token2022P) with pr by (by destruct pr).
  assert (forall o, (if bool_decide (is_Some de) then '(d, o) ← cut 40 (match de with Some (d, n) => le 32 d ++ le 8 n | None => [] end ++ o);
             Done (Some (unle (take 32 d), unle (drop 32 d)), o) else Done (None, match de with Some (d, n) => le 32 d ++ le 8 n | None => [] end ++ o))
     = Done (match de with Some (d, n) => Some (d mod 2 ^ 256, n mod 2 ^ 64) | None => None end, o)) as ->.
  { intros o. destruct de as [[d n]|]; [|done]. rewrite bool_decide_true by eauto.
    rewrite cut_app by (by rewrite app_length, !le_length). rewrite Hb. cbv beta iota.
    rewrite take_app_alt, drop_app_alt by (by rewrite le_length). by rewrite !unle_le. }
  rewrite Hb. cbv beta iota.
  assert (forall o, (if bool_decide (is_Some na) then '(d, o) ← cut 8 (match na with Some n => le 8 n | None => [] end ++ o);
             Done (Some (unle d), o) else Done (None, match na with Some n => le 8 n | None => [] end ++ o))
     = Done (match na with Some n => Some (n mod 2 ^ 64) | None => None end, o)) as ->.
  { intros o. destruct na as [n|]; [|done]. rewrite bool_decide_true by eauto.
    rewrite cut_app by (by rewrite le_length). rewrite Hb. cbv beta iota. by rewrite unle_le. }
  rewrite Hb. cbv beta iota.
  assert (forall o, (if bool_decide (is_Some cl) then '(d, o) ← cut 32 (match cl with Some n => le 32 n | None => [] end ++ o);
             Done (Some (unle d), o) else Done (None, match cl with Some n => le 32 n | None => [] end ++ o))
     = Done (match cl with Some n => Some (n mod 2 ^ 256) | None => None end, o)) as ->.
  { intros o. destruct cl as [n|]; [|done]. rewrite bool_decide_true by eauto.
    rewrite cut_app by (by rewrite le_length). rewrite Hb. cbv beta iota. by rewrite unle_le. }
  rewrite Hb. cbv beta iota.
  destruct ex as [x|].
  - rewrite bool_decide_true by eauto. rewrite cut_app by (by rewrite le_length). rewrite Hb. cbv beta iota.
    rewrite unle_le. change (256 ^ N.of_nat 4) with (2 ^ 32). unfold cut.
    pose proof (N.mod_le (lenN x) (2 ^ 32)) as Hle.
    destruct (Nat.leb_spec (N.to_nat (lenN x mod 2 ^ 32)) (length x)) as [_|Hlt].
    2:{ unfold lenN in *. lia. }
    rewrite Hb. cbv beta iota. rewrite Hb. destruct del; done.
  - rewrite bool_decide_false by (by intros [? ?]). rewrite Hb. destruct del; done.
Qed.
Lemma truncated_id t : ta_ok t -> (forall d, ta_extra t = Some d -> lenN d < 2 ^ 32) -> truncated t = t.
Proof.
  intros (H1 & H2 & H3 & H4 & H5 & H6 & H7) H8.
  destruct t as [pr del pk ow mi am ts de na cl ex]. unfold truncated. simpl in *.
  rewrite !N.mod_small by done. f_equal.
  - destruct de as [[d n]|]; [|done]. destruct (H5 _ _ eq_refl). by rewrite !N.mod_small.
  - destruct na as [n|]; [|done]. by rewrite N.mod_small by auto.
  - destruct cl as [n|]; [|done]. by rewrite N.mod_small by auto.
  - destruct ex as [x|]; [|done]. rewrite N.mod_small by auto. unfold lenN. rewrite Nat2N.id.
    f_equal. by apply take_ge.
Qed.
Lemma round_trip_iff t : ta_ok t -> from_bytes (to_bytes t) = Done t <-> (forall d, ta_extra t = Some d -> lenN d < 2 ^ 32).
Proof.
  intros Hok. rewrite from_to. split.
  - intros [= H] d Hd. assert (Some (take (N.to_nat (lenN d mod 2 ^ 32)) d) = Some d) as [= Ht].
    { apply (f_equal ta_extra) in H. unfold truncated in H. cbn [ta_extra] in H. by rewrite Hd in H. }
    assert (length (take (N.to_nat (lenN d mod 2 ^ 32)) d) = length d) as Hl by (by rewrite Ht).
    rewrite take_length in Hl. pose proof (N.mod_lt (lenN d) (2 ^ 32)). unfold lenN in *. lia.
  - intros H. f_equal. by apply truncated_id.
Qed.

(** ** Peeking *)
Lemma slice_of a n v : (a + n <= length v)%nat -> slice a n v = Done (take n (drop a v)).
Proof. intros H. unfold slice. by destruct (Nat.leb_spec (a + n) (length v)); [|lia]. Qed.
Lemma take_drop_take a n m (v : bytes) : (a + n <= m)%nat -> take n (drop a (take m v)) = take n (drop a v).
Proof.
  intros H. symmetry. transitivity (take n (drop a (take m v ++ drop m v))); [by rewrite take_drop|].
  destruct (decide (m <= length v)%nat) as [Hl|Hl].
  - rewrite drop_app_le by (rewrite take_length; lia). apply take_app_le. rewrite drop_length, take_length. lia.
  - rewrite (drop_ge v m), app_nil_r by lia. done.
Qed.
Lemma from_bytes_fields v t : from_bytes v = Done t ->
  (78 <= length v)%nat /\ ta_pubkey t = unle (take 32 (drop 2 v)) /\ ta_owner t = unle (take 32 (drop 34 v)) /\
  ta_mint t = unle (take 4 (drop 66 v)) /\
  (ta_program t = TokenP <-> N.land (unle (take 1 v)) 1 = 0) /\
  unle (take 1 (drop 1 v)) = if ta_deleted t then 1 else 0.
Proof.
  unfold from_bytes. destruct (cut 78 v) as [[h o]|] eqn:Hc; [|done]. unfold cut in Hc.
  destruct (Nat.leb_spec 78 (length v)) as [Hl|]; [|done]. injection Hc as <- <-.
  assert (forall {A B} (f : A -> res B) x, mbind f (Done x) = f x) as Hb by done.
  rewrite Hb. cbv beta iota zeta.
  destruct (if _ =? 0 then Done Init else _) as [ts|]; [|done]. rewrite Hb. cbv beta iota zeta.
  match goal with |- mbind _ ?x = _ -> _ => destruct x as [[de o1]|]; [|done] end. rewrite Hb. cbv beta iota.
  match goal with |- mbind _ ?x = _ -> _ => destruct x as [[na o2]|]; [|done] end. rewrite Hb. cbv beta iota.
  match goal with |- mbind _ ?x = _ -> _ => destruct x as [[cl o3]|]; [|done] end. rewrite Hb. cbv beta iota.
  match goal with |- mbind _ ?x = _ -> _ => destruct x as [ex|]; [|done] end. rewrite Hb. cbv beta iota.
  rewrite !take_drop_take by lia.
  assert (take 1 (take 78 v) = take 1 v) as -> by (rewrite take_take; f_equal; lia).
  destruct (N.eqb_spec (unle (take 1 (drop 1 v))) 0) as [H0|H0];
    [|destruct (N.eqb_spec (unle (take 1 (drop 1 v))) 1) as [H1|H1]; [|done]];
    rewrite Hb; intros [= <-]; cbn [ta_program ta_deleted ta_pubkey ta_owner ta_mint];
    (split; [done|]); (split; [done|]); (split; [done|]); (split; [done|]); (split; [|done]);
    (destruct (N.eqb_spec (N.land (unle (take 1 v)) 1) 0); naive_solver).
Qed.

(** ** The table *)
Definition good (t : token_account) : Prop := ta_ok t /\ (forall d, ta_extra t = Some d -> lenN d < 2 ^ 32).
Lemma good_from t : good t -> from_bytes (to_bytes t) = Done t.
Proof. intros [H1 H2]. by apply round_trip_iff. Qed.
Lemma peek_to t : peek_pubkey (to_bytes t) = Done (ta_pubkey t mod 2 ^ 256).
Proof.
  destruct (from_bytes_fields _ _ (from_to t)) as (Hl & Hp & _). unfold peek_pubkey. rewrite slice_of by lia.
  simpl. by rewrite <- Hp.
Qed.
Lemma good_peek t : good t -> peek_pubkey (to_bytes t) = Done (ta_pubkey t).
Proof. intros [(H & _) _]. rewrite peek_to. by rewrite N.mod_small. Qed.
Lemma good_deleted : good deleted_account.
Proof. split; [|done]. repeat split; done. Qed.

Local Opaque to_bytes from_bytes peek_pubkey.
(** The account stored at position [i]. *)
Definition stored (tb : table) (i : nat) (t : token_account) : Prop := good t /\ tb_accounts tb !! i = Some (to_bytes t).
Lemma to_bytes_inj t t' : good t -> good t' -> to_bytes t = to_bytes t' -> t = t'.
Proof. intros H H' He. apply good_from in H, H'. congruence. Qed.
Lemma stored_fun tb i t t' : stored tb i t -> stored tb i t' -> t = t'.
Proof. intros [H1 H2] [H1' H2']. apply to_bytes_inj; [done..|congruence]. Qed.

Record tb_ok (tb : table) : Prop := TbOk {
  to_all : forall i v, tb_accounts tb !! i = Some v -> exists t, good t /\ v = to_bytes t;
  to_bucket : forall k ixs, tb_index tb !! k = Some ixs -> ixs <> [] /\
    forall i, i ∈ ixs -> exists t, stored tb i t /\ prefix4 (ta_pubkey t) = k;
  to_uniq : forall k ixs i j t t', tb_index tb !! k = Some ixs -> i ∈ ixs -> j ∈ ixs -> stored tb i t -> stored tb j t' ->
    ta_pubkey t = ta_pubkey t' -> i = j;
}.
(** [pk]'s account is at position [i]. *)
Definition at_pos (tb : table) (pk : pubkey) (i : nat) (t : token_account) : Prop :=
  stored tb i t /\ ta_pubkey t = pk /\ exists ixs, tb_index tb !! prefix4 pk = Some ixs /\ i ∈ ixs.
Definition rep (tb : table) (m : gmap pubkey token_account) : Prop :=
  forall pk t, m !! pk = Some t <-> exists i, at_pos tb pk i t.

Lemma tb_ok_empty : tb_ok table_empty.
Proof. constructor; simpl; intros *; rewrite ?lookup_nil, ?lookup_empty; done. Qed.
Lemma rep_empty : rep table_empty ∅.
Proof.
  intros pk t. rewrite lookup_empty. split; [done|]. intros (i & _ & _ & ixs & H & _). simpl in H. by rewrite lookup_empty in H.
Qed.
Lemma find_pk_spec tb pk ixs : (forall i, i ∈ ixs -> exists t, stored tb i t) ->
  exists o, find_pk (tb_accounts tb) pk ixs = Done o /\
    match o with
    | Some i => i ∈ ixs /\ exists t, stored tb i t /\ ta_pubkey t = pk
    | None => forall i t, i ∈ ixs -> stored tb i t -> ta_pubkey t <> pk
    end.
Proof.
  induction ixs as [|i ixs IH]; simpl; intros H.
  - exists None. split; [done|]. intros i t Hi. by apply elem_of_nil in Hi.
  - destruct (H i) as (t & Hg & Hi); [by left|]. rewrite Hi. simpl. rewrite (good_peek t Hg). simpl.
    destruct (N.eqb_spec (ta_pubkey t) pk) as [He|Hne].
    + exists (Some i). split; [done|]. split; [by left|]. exists t. by split.
    + destruct IH as (o & -> & Ho); [intros j Hj; apply H; by right|]. exists o. split; [done|].
      destruct o as [j|].
      * destruct Ho as [? ?]. split; [by right|done].
      * intros j t' [->|Hj]%elem_of_cons Hs; [|by eapply Ho]. by rewrite (stored_fun tb i t' t).
Qed.
Lemma bucket_find tb pk ixs : tb_ok tb -> tb_index tb !! prefix4 pk = Some ixs ->
  exists o, find_pk (tb_accounts tb) pk ixs = Done o /\
    match o with Some i => i ∈ ixs /\ exists t, at_pos tb pk i t | None => forall i t, ~ at_pos tb pk i t end.
Proof.
  intros Hok Hk. destruct (to_bucket _ Hok _ _ Hk) as [_ Hall].
  destruct (find_pk_spec tb pk ixs) as (o & Hf & Ho).
  { intros i Hi. destruct (Hall i Hi) as (t & ? & _). by exists t. }
  exists o. split; [done|]. destruct o as [i|].
  - destruct Ho as (Hi & t & Hs & Hp). split; [done|]. exists t. split; [done|]. split; [done|]. eauto.
  - intros i t (Hs & Hp & ixs' & Hk' & Hi). rewrite Hk in Hk'. injection Hk' as <-. by eapply Ho.
Qed.
Lemma at_pos_fun tb pk i j t t' : tb_ok tb -> at_pos tb pk i t -> at_pos tb pk j t' -> i = j /\ t = t'.
Proof.
  intros Hok (Hs & Hp & ixs & Hk & Hi) (Hs' & Hp' & ixs' & Hk' & Hi'). rewrite Hk in Hk'. injection Hk' as <-.
  assert (i = j) as -> by (eapply (to_uniq _ Hok _ ixs i j t t'); eauto; congruence).
  split; [done|]. by eapply stored_fun.
Qed.
Lemma rep_none tb m pk : rep tb m -> m !! pk = None <-> forall i t, ~ at_pos tb pk i t.
Proof.
  intros Hr. split.
  - intros Hn i t Ha. assert (m !! pk = Some t) by (apply Hr; eauto). congruence.
  - intros H. destruct (m !! pk) as [t|] eqn:Hm; [|done]. apply Hr in Hm as (i & Ha). by apply H in Ha.
Qed.
Lemma rep_exists tb : tb_ok tb -> exists m, rep tb m.
Proof.
  intros Hok.
  set (f := fun pk => match tb_get tb pk with Done o => o | Panic => None end).
  assert (forall pk t, f pk = Some t <-> exists i, at_pos tb pk i t) as Hf.
  { intros pk t. unfold f, tb_get. destruct (tb_index tb !! prefix4 pk) as [ixs|] eqn:Hk.
    - destruct (bucket_find tb pk ixs Hok Hk) as (o & -> & Ho). simpl. destruct o as [i|].
      + destruct Ho as (Hi & t' & Ha). pose proof Ha as ((Hg & Hs) & _). rewrite Hs. simpl. rewrite (good_from _ Hg). simpl.
        split; [intros [= <-]; eauto|]. intros (j & Ha'). by destruct (at_pos_fun _ _ _ _ _ _ Hok Ha Ha') as [_ ->].
      + split; [done|]. intros (i & Ha). by apply Ho in Ha.
    - split; [done|]. intros (i & _ & _ & ixs & Hk' & _). congruence. }
  (* positions are finitely many *)
  set (l := omap (fun v => match from_bytes v with Done t => Some (ta_pubkey t) | Panic => None end) (tb_accounts tb)).
  exists (list_to_map (omap (fun pk => pair pk <$> f pk) (remove_dups l))). intros pk t. rewrite <- Hf. split.
  - intros H. apply elem_of_list_to_map_2 in H. apply elem_of_list_omap in H as (pk' & _ & H).
    destruct (f pk') eqn:He; [|done]. simpl in H. injection H as -> ->. done.
  - intros H. apply elem_of_list_to_map_1'.
    + intros t' H'. apply elem_of_list_omap in H' as (pk' & _ & H'). destruct (f pk') eqn:He; [|done]. simpl in H'. congruence.
    + apply elem_of_list_omap. exists pk. rewrite H. split; [|done]. apply elem_of_remove_dups.
      apply Hf in H as (i & (Hg & Hs) & Hp & _). apply elem_of_list_omap. exists (to_bytes t).
      rewrite (good_from _ Hg), Hp. split; [|done]. by eapply elem_of_list_lookup_2.
Qed.

Lemma tb_get_spec tb m pk : tb_ok tb -> rep tb m -> tb_get tb pk = Done (m !! pk).
Proof.
  intros Hok Hr. unfold tb_get. destruct (tb_index tb !! prefix4 pk) as [ixs|] eqn:Hk.
  - destruct (bucket_find tb pk ixs Hok Hk) as (o & -> & Ho). simpl. destruct o as [i|].
    + destruct Ho as (Hi & t & Ha). pose proof Ha as ((Hg & Hs) & _). rewrite Hs. simpl. rewrite (good_from _ Hg). simpl.
      f_equal. symmetry. apply Hr. by exists i.
    + f_equal. symmetry. by apply (rep_none tb).
  - f_equal. symmetry. apply (rep_none tb); [done|]. intros i t (_ & _ & ixs & Hk' & _). congruence.
Qed.

Lemma stored_insert tb ix i t0 j t : stored (Table ix (<[i := to_bytes t0]> (tb_accounts tb))) j t -> good t0 ->
  (i < length (tb_accounts tb))%nat -> (j = i /\ t = t0) \/ (j <> i /\ stored tb j t).
Proof.
  intros [Hg Hs] Hg0 Hlt. simpl in Hs. destruct (decide (j = i)) as [->|Hne].
  - rewrite list_lookup_insert in Hs by done. apply (inj Some) in Hs. left. split; [done|]. symmetry. by apply to_bytes_inj.
  - rewrite list_lookup_insert_ne in Hs by done. right. done.
Qed.
Lemma stored_app tb ix t0 j t : stored (Table ix (tb_accounts tb ++ [to_bytes t0])) j t -> good t0 ->
  (j = length (tb_accounts tb) /\ t = t0) \/ (j < length (tb_accounts tb))%nat /\ stored tb j t.
Proof.
  intros [Hg Hs] Hg0. simpl in Hs. apply lookup_app_Some in Hs as [Hs|[Hge Hs]].
  - right. split; [by eapply lookup_lt_Some|done].
  - apply list_lookup_singleton_Some in Hs as [Hz Hs]. left. split; [lia|]. symmetry. by apply to_bytes_inj.
Qed.
Lemma stored_lt tb i t : stored tb i t -> (i < length (tb_accounts tb))%nat.
Proof. intros [_ H]. by eapply lookup_lt_Some. Qed.

(** Saving. *)
Lemma tb_save_spec tb t : tb_ok tb -> good t ->
  exists tb' i b, tb_save tb t = Done (tb', i, b) /\ tb_ok tb' /\
    at_pos tb' (ta_pubkey t) i t /\
    (forall pk j t', pk <> ta_pubkey t -> at_pos tb' pk j t' <-> at_pos tb pk j t') /\
    (b = false -> exists t0, at_pos tb (ta_pubkey t) i t0) /\
    (b = true -> i = length (tb_accounts tb) /\ forall j t', ~ at_pos tb (ta_pubkey t) j t') /\
    (forall j, j <> i -> tb_accounts tb' !! j = tb_accounts tb !! j) /\
    (length (tb_accounts tb) <= length (tb_accounts tb'))%nat.
Proof.
  intros Hok Hg. unfold tb_save. set (n := length (tb_accounts tb)). set (k := prefix4 (ta_pubkey t)).
  assert (forall ix', tb_index tb !! k = None \/ (exists ixs, tb_index tb !! k = Some ixs) ->
    (forall i t', ~ at_pos tb (ta_pubkey t) i t') -> ix' = <[k := default [] (tb_index tb !! k) ++ [n]]> (tb_index tb) ->
    let tb' := Table ix' (tb_accounts tb ++ [to_bytes t]) in
    tb_ok tb' /\ at_pos tb' (ta_pubkey t) n t /\
    (forall pk j t', pk <> ta_pubkey t -> at_pos tb' pk j t' <-> at_pos tb pk j t')) as Hnew.
  { intros ix' _ Hno -> tb'. assert (stored tb' n t) as Hst.
    { split; [done|]. simpl. rewrite lookup_app_r by done. unfold n. by rewrite Nat.sub_diag. }
    assert (forall j t', stored tb j t' -> stored tb' j t') as Hold.
    { intros j t' [? H]. split; [done|]. simpl. by apply lookup_app_l_Some. }
    assert (forall j t', stored tb' j t' -> (j = n /\ t' = t) \/ (j < n)%nat /\ stored tb j t') as Hinv.
    { intros j t' H. by apply stored_app in H. }
    split; [constructor|split].
    - simpl. intros i v [H|[_ H]]%lookup_app_Some; [by eapply to_all|].
      apply list_lookup_singleton_Some in H as [_ H]. eauto.
    - simpl. intros q ixs Hq. destruct (decide (q = k)) as [->|Hne].
      + rewrite lookup_insert in Hq. injection Hq as <-. split; [by destruct (default [] _)|].
        intros i [Hi|Hi]%elem_of_app.
        * destruct (tb_index tb !! k) as [ixs|] eqn:Hk; [|by apply elem_of_nil in Hi].
          destruct (to_bucket _ Hok _ _ Hk) as [_ Hall]. destruct (Hall i Hi) as (t' & Hs & Hp). eauto.
        * apply elem_of_list_singleton in Hi as ->. eauto.
      + rewrite lookup_insert_ne in Hq by done. destruct (to_bucket _ Hok _ _ Hq) as [Hn Hall]. split; [done|].
        intros i Hi. destruct (Hall i Hi) as (t' & Hs & Hp). eauto.
    - simpl. intros q ixs i j t1 t2 Hq Hi Hj H1 H2 Hp.
      destruct (decide (q = k)) as [->|Hne].
      + rewrite lookup_insert in Hq. injection Hq as <-.
        assert (forall i0 t0, i0 ∈ default [] (tb_index tb !! k) ++ [n] -> stored tb' i0 t0 -> i0 <> n ->
                  exists ixs, tb_index tb !! k = Some ixs /\ i0 ∈ ixs /\ stored tb i0 t0) as Hin.
        { intros i0 t0 H0 Hs0 Hne. apply elem_of_app in H0 as [H0|H0]; [|by apply elem_of_list_singleton in H0].
          destruct (tb_index tb !! k) as [ixs|]; [|by apply elem_of_nil in H0]. exists ixs.
          destruct (Hinv _ _ Hs0) as [[? _]|[_ ?]]; [done|]. done. }
        destruct (decide (i = n)) as [->|Hi'], (decide (j = n)) as [->|Hj']; [done| | |].
        * exfalso. destruct (Hin _ _ Hj H2 Hj') as (ixs & Hk & Hji & Hs). apply (Hno j t2).
          destruct (Hinv _ _ H1) as [[_ ->]|[? _]]; [|lia]. split; [done|]. split; [done|]. eauto.
        * exfalso. destruct (Hin _ _ Hi H1 Hi') as (ixs & Hk & Hji & Hs). apply (Hno i t1).
          destruct (Hinv _ _ H2) as [[_ ->]|[? _]]; [|lia]. split; [done|]. split; [done|]. eauto.
        * destruct (Hin _ _ Hi H1 Hi') as (ixs & Hk & Hii & Hs). destruct (Hin _ _ Hj H2 Hj') as (ixs' & Hk' & Hjj & Hs').
          rewrite Hk in Hk'. injection Hk' as <-. by eapply (to_uniq _ Hok k ixs i j t1 t2).
      + rewrite lookup_insert_ne in Hq by done. destruct (to_bucket _ Hok _ _ Hq) as [_ Hall].
        assert (forall i0 t0, i0 ∈ ixs -> stored tb' i0 t0 -> stored tb i0 t0) as Hin.
        { intros i0 t0 H0 Hs0. destruct (Hall i0 H0) as (t3 & Hs3 & _). apply stored_lt in Hs3.
          destruct (Hinv _ _ Hs0) as [[? _]|[_ ?]]; [unfold n in *; lia|done]. }
        eapply (to_uniq _ Hok q ixs i j t1 t2); eauto.
    - split; [done|]. split; [done|]. simpl. fold k. rewrite lookup_insert. eexists. split; [done|]. apply elem_of_app. right. by left.
    - intros pk j t' Hne. unfold at_pos. simpl. split.
      + intros (Hs & Hp & ixs & Hq & Hi). destruct (Hinv _ _ Hs) as [[-> ->]|[Hlt Hs']]; [congruence|].
        split; [done|]. split; [done|]. destruct (decide (prefix4 pk = k)) as [He|Hk].
        * rewrite He, lookup_insert in Hq. injection Hq as <-. apply elem_of_app in Hi as [Hi|Hi].
          -- rewrite He. destruct (tb_index tb !! k) as [ixs|]; [|by apply elem_of_nil in Hi]. eauto.
          -- apply elem_of_list_singleton in Hi. lia.
        * rewrite lookup_insert_ne in Hq by done. eauto.
      + intros (Hs & Hp & ixs & Hq & Hi). split; [by apply Hold|]. split; [done|].
        destruct (decide (prefix4 pk = k)) as [He|Hk].
        * rewrite He, lookup_insert. eexists. split; [done|]. rewrite He in Hq. rewrite Hq. simpl. apply elem_of_app. by left.
        * rewrite lookup_insert_ne by done. eauto. }
  destruct (tb_index tb !! k) as [ixs|] eqn:Hk.
  - destruct (bucket_find tb (ta_pubkey t) ixs Hok Hk) as (o & Hf & Ho). rewrite Hf. simpl. destruct o as [i|].
    + destruct Ho as (Hi & t0 & Ha). exists (Table (tb_index tb) (<[i := to_bytes t]> (tb_accounts tb))), i, false.
      split; [done|]. pose proof Ha as (Hs & Hp & _). pose proof (stored_lt _ _ _ Hs) as Hlt.
      set (tb' := Table (tb_index tb) (<[i := to_bytes t]> (tb_accounts tb))).
      assert (stored tb' i t) as Hst by (split; [done|]; simpl; by apply list_lookup_insert).
      assert (forall j t', j <> i -> stored tb' j t' <-> stored tb j t') as Hoth.
      { intros j t' Hne. unfold stored. simpl. by rewrite list_lookup_insert_ne. }
      assert (forall j t', stored tb' j t' -> (j = i /\ t' = t) \/ (j <> i /\ stored tb j t')) as Hinv.
      { intros j t' H. by apply stored_insert in H. }
      assert (forall j t', stored tb' j t' -> exists t1, stored tb j t1 /\ ta_pubkey t1 = ta_pubkey t') as Hsame.
      { intros j t' H. destruct (Hinv _ _ H) as [[-> ->]|[_ ?]]; eauto. }
      split_and!.
      * constructor; simpl.
        -- intros j v. destruct (decide (j = i)) as [->|Hne].
           ++ rewrite list_lookup_insert by done. intros Hv. apply (inj Some) in Hv. eauto.
           ++ rewrite list_lookup_insert_ne by done. apply (to_all _ Hok).
        -- intros q jxs Hq. destruct (to_bucket _ Hok _ _ Hq) as [Hn Hall]. split; [done|]. intros j Hj.
           destruct (Hall j Hj) as (t1 & Hs1 & Hp1). destruct (decide (j = i)) as [->|Hne].
           ++ exists t. split; [done|]. rewrite <- Hp. by rewrite (stored_fun _ _ _ _ Hs Hs1).
           ++ exists t1. split; [|done]. by apply Hoth.
        -- intros q jxs a b t1 t2 Hq Ha1 Hb1 H1 H2 He.
           destruct (Hsame _ _ H1) as (u1 & Hu1 & He1). destruct (Hsame _ _ H2) as (u2 & Hu2 & He2).
           eapply (to_uniq _ Hok q jxs a b u1 u2); eauto. congruence.
      * split; [done|]. split; [done|]. eauto.
      * intros pk j t' Hne. unfold at_pos. simpl. split; intros (H1 & H2 & H3).
        -- destruct (Hinv _ _ H1) as [[-> ->]|[_ ?]]; [congruence|done].
        -- split; [|done]. apply Hoth; [|done]. intros ->. apply Hne. rewrite <- H2, <- Hp. f_equal. by eapply stored_fun.
      * eauto.
      * done.
      * intros j Hj. simpl. by rewrite list_lookup_insert_ne.
      * simpl. by rewrite insert_length.
    + destruct (Hnew (<[k := ixs ++ [n]]> (tb_index tb))) as (H1 & H2 & H3); [eauto|done|done|].
      do 3 eexists. split; [done|]. split_and!; try done.
      * intros j Hj. simpl. destruct (decide (j < n)%nat) as [Hlt|Hge]; [by rewrite lookup_app_l|].
        rewrite !lookup_ge_None_2; [done| |]; rewrite ?app_length; simpl; unfold n in *; lia.
      * simpl. rewrite app_length. lia.
  - destruct (Hnew (<[k := [n]]> (tb_index tb))) as (H1 & H2 & H3); [by left| |done|].
    { intros i t' (_ & _ & ixs & Hk' & _). unfold k in *. congruence. }
    do 3 eexists. split; [done|]. split_and!; try done.
    * intros _. split; [done|]. intros j t' (_ & _ & ixs & Hk' & _). unfold k in *. congruence.
    * intros j Hj. simpl. destruct (decide (j < n)%nat) as [Hlt|Hge]; [by rewrite lookup_app_l|].
      rewrite !lookup_ge_None_2; [done| |]; rewrite ?app_length; simpl; unfold n in *; lia.
    * simpl. rewrite app_length. lia.
Qed.
Lemma rep_save tb tb' m t i b : tb_ok tb -> rep tb m -> good t -> tb_save tb t = Done (tb', i, b) ->
  rep tb' (<[ta_pubkey t := t]> m).
Proof.
  intros Hok Hr Hg H. destruct (tb_save_spec tb t Hok Hg) as (tb1 & i1 & b1 & H1 & Hok1 & Ha & Hoth & _).
  rewrite H in H1. injection H1 as <- <- <-. intros pk t'. destruct (decide (pk = ta_pubkey t)) as [->|Hne].
  - rewrite lookup_insert. split; [intros [= <-]; eauto|]. intros (j & Ha'). f_equal. by destruct (at_pos_fun _ _ _ _ _ _ Hok1 Ha Ha').
  - rewrite lookup_insert_ne by done. rewrite (Hr pk t'). split; intros (j & Hj); exists j; by apply Hoth.
Qed.

(** Deleting: the whole bucket goes. *)
Lemma tb_delete_spec tb pk : tb_ok tb ->
  exists tb', tb_delete tb pk = Done tb' /\ tb_ok tb' /\
    (forall q j t, at_pos tb' q j t <-> prefix4 q <> prefix4 pk /\ at_pos tb q j t) /\
    length (tb_accounts tb') = length (tb_accounts tb) /\
    (forall j, tb_accounts tb' !! j = tb_accounts tb !! j \/
               (exists t, at_pos tb pk j t) /\ tb_accounts tb' !! j = Some (to_bytes deleted_account)) /\
    (forall j t, at_pos tb pk j t -> tb_accounts tb' !! j = Some (to_bytes deleted_account)).
Proof.
  intros Hok. unfold tb_delete. destruct (tb_index tb !! prefix4 pk) as [ixs|] eqn:Hk.
  2:{ exists tb. split; [done|]. split; [done|]. split_and!; try done.
      - intros q j t. split; [|by intros [_ ?]]. intros Ha. split; [|done]. intros He.
        destruct Ha as (_ & _ & ixs & Hq & _). congruence.
      - by left.
      - intros j t (_ & _ & ixs & Hq & _). congruence. }
  destruct (bucket_find tb pk ixs Hok Hk) as (o & Hf & Ho). rewrite Hf. simpl.
  destruct (to_bucket _ Hok _ _ Hk) as [_ Hall].
  assert (exists accs, match o with Some i => Done (Table (delete (prefix4 pk) (tb_index tb)) (<[i:=to_bytes deleted_account]> (tb_accounts tb)))
            | None => Done (Table (delete (prefix4 pk) (tb_index tb)) (tb_accounts tb)) end
            = Done (Table (delete (prefix4 pk) (tb_index tb)) accs) /\ length accs = length (tb_accounts tb) /\
          (forall j, accs !! j = tb_accounts tb !! j \/ (exists t, at_pos tb pk j t) /\ accs !! j = Some (to_bytes deleted_account)) /\
          (forall j t, at_pos tb pk j t -> accs !! j = Some (to_bytes deleted_account))) as (accs & -> & Hlen & Hac & Hac').
  { destruct o as [i|].
    - destruct Ho as (Hi & t & Ha). eexists. split; [done|]. split; [by rewrite insert_length|]. split.
      + intros j. destruct (decide (j = i)) as [->|Hne].
        * right. split; [eauto|]. destruct Ha as (Hs & _). by apply list_lookup_insert, (stored_lt _ _ t).
        * left. by rewrite list_lookup_insert_ne.
      + intros j t' Ha'. destruct (at_pos_fun _ _ _ _ _ _ Hok Ha Ha') as [-> _]. destruct Ha as (Hs & _).
        by apply list_lookup_insert, (stored_lt _ _ t).
    - eexists. split; [done|]. split; [done|]. split; [by left|]. intros j t Ha. by apply Ho in Ha. }
  set (tb' := Table (delete (prefix4 pk) (tb_index tb)) accs).
  assert (forall q jxs j t, tb_index tb !! q = Some jxs -> j ∈ jxs -> q <> prefix4 pk -> stored tb' j t <-> stored tb j t) as Hst.
  { intros q jxs j t Hq Hj Hne. unfold stored. simpl. destruct (Hac j) as [->|[(t1 & H1) _]]; [done|].
    exfalso. destruct (to_bucket _ Hok _ _ Hq) as [_ Hq']. destruct (Hq' j Hj) as (t2 & Hs2 & Hp2).
    destruct H1 as (Hs1 & Hp1 & _). apply Hne. rewrite <- Hp2, <- Hp1. f_equal. f_equal. by eapply stored_fun. }
  exists tb'. split; [done|]. split; [constructor; simpl|split_and!; [|done..]].
  - intros i v Hi. destruct (Hac i) as [He|[_ He]]; rewrite He in Hi; [by eapply to_all|]. apply (inj Some) in Hi. eauto using good_deleted.
  - intros q jxs [Hne Hq]%lookup_delete_Some. destruct (to_bucket _ Hok _ _ Hq) as [Hn Hq']. split; [done|].
    intros j Hj. destruct (Hq' j Hj) as (t & Hs & Hp). exists t. split; [|done]. by eapply Hst.
  - intros q jxs i j t t' [Hne Hq]%lookup_delete_Some Hi Hj H1 H2. eapply (to_uniq _ Hok q jxs i j t t'); [done..| |]; by eapply Hst.
  - intros q j t. unfold at_pos. simpl. split.
    + intros (Hs & Hp & jxs & [Hne Hq]%lookup_delete_Some & Hj). split; [by apply not_eq_sym|]. split; [by eapply Hst|]. eauto.
    + intros (Hne & Hs & Hp & jxs & Hq & Hj). split; [by eapply Hst|]. split; [done|]. exists jxs. split; [|done].
      by rewrite lookup_delete_ne.
Qed.
Lemma rep_delete tb tb' m pk : tb_ok tb -> rep tb m -> tb_delete tb pk = Done tb' ->
  rep tb' (filter (fun '(q, _) => prefix4 q <> prefix4 pk) m).
Proof.
  intros Hok Hr H. destruct (tb_delete_spec tb pk Hok) as (tb1 & H1 & Hok1 & Ha & _).
  rewrite H in H1. injection H1 as <-. intros q t. rewrite map_filter_lookup_Some, (Hr q t). split.
  - intros [(i & Hi) Hne]. exists i. by apply Ha.
  - intros (i & Hi). apply Ha in Hi as [Hne Hi]. eauto.
Qed.
(** [contains]. *)
Lemma tb_contains_spec tb m pk : tb_ok tb -> rep tb m ->
  exists o, tb_contains tb pk = Done o /\
    (is_Some (m !! pk) -> exists i t, o = Some i /\ at_pos tb pk i t) /\
    (is_Some o -> exists pk', prefix4 pk' = prefix4 pk /\ is_Some (m !! pk')).
Proof.
  intros Hok Hr. unfold tb_contains. destruct (tb_index tb !! prefix4 pk) as [ixs|] eqn:Hk.
  2:{ exists None. split; [done|]. split; [|by intros [? ?]]. intros [t Ht]. apply Hr in Ht as (i & _ & _ & ixs & Hk' & _). congruence. }
  destruct (to_bucket _ Hok _ _ Hk) as [Hne Hall].
  assert (forall i, i ∈ ixs -> exists pk', prefix4 pk' = prefix4 pk /\ is_Some (m !! pk')) as Hin.
  { intros i Hi. destruct (Hall i Hi) as (t & Hs & Hp). exists (ta_pubkey t). split; [done|]. exists t. apply Hr.
    exists i. split; [done|]. split; [done|]. rewrite Hp. eauto. }
  destruct (Nat.ltb_spec 1 (length ixs)) as [Hl|Hl].
  - destruct (bucket_find tb pk ixs Hok Hk) as (o & Hf & Ho). exists o. split; [done|]. split.
    + intros [t Ht]. destruct o as [i|]; [destruct Ho as (_ & t' & ?); eauto|].
      apply Hr in Ht as (i & Ha). by apply Ho in Ha.
    + intros [i ->]. destruct Ho as (Hi & _). by eapply Hin.
  - destruct ixs as [|i [|]]; [done| |simpl in Hl; lia]. exists (Some i). split; [done|]. split.
    + intros [t Ht]. apply Hr in Ht as (j & Ha). pose proof Ha as (Hs & Hp & ixs & Hk' & Hi).
      rewrite Hk in Hk'. injection Hk' as <-. apply elem_of_list_singleton in Hi as ->. eauto.
    + intros _. apply (Hin i). by left.
Qed.

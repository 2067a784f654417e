(** What the store is given for a compressed message (C77). *)
From Verif Require Import Base DataModel TokenUtilsModel TokenStoreModel TokenStoreProps StreamModel StreamSpec StreamProps.

(** C77: whatever the compression of a message, the version handed to the store reads back as an account whose data is the payload of the message, as it came; the store
    keeps it in the form the message asks for, compressed at the message's level. *)
Theorem C77_payload_is_data : forall E ord g a,
  (forall lv b, x_lz4c E lv (g_data g) = Some b -> x_lz4d E b = Some (g_data g)) ->
  msg_op E ord (GAccountMsg g) = Done (Some (TUpdate a Processed)) ->
  d_pubkey a = g_pubkey g /\ d_slot a = g_slot g /\ d_wv a = g_wv g /\
  to_solana E (d_account a) = Done (SolAccount (g_lamports g) (g_data g) (g_owner g) (g_exec g) (g_rent g)) /\
  match g_comp g with
  | GNone => a_data (d_account a) = DRaw (g_data g)
  | GLz4Fast v | GLz4 v => exists b, x_lz4c E v (g_data g) = Some b /\ a_data (d_account a) = DLz4 b (lenN (g_data g))
  end.
Proof.
  intros E ord g a Hlaw H. unfold msg_op, msg_acct in H. destruct (data_new E (g_data g) (method_of (g_comp g))) as [d|] eqn:Hd; [|done].
  simpl in H. injection H as <-. simpl. do 3 (split; [done|]).
  destruct (g_comp g) as [|v|v]; simpl in Hd; [injection Hd as <-; by split| |];
    (destruct (x_lz4c E v (g_data g)) as [b|] eqn:Hb; simpl in Hd; [|done]; injection Hd as <-; unfold to_solana; simpl; rewrite (Hlaw v b Hb); simpl; split; [done|by exists b]).
Qed.
Print Assumptions C77_payload_is_data.
Example C77_payload_is_data_example : exists a, let g := squeezed (gtok 77 1001 1002 7 10 2) in
  (forall lv b, x_lz4c EZ lv (g_data g) = Some b -> x_lz4d EZ b = Some (g_data g)) /\
  msg_op EZ ord0 (GAccountMsg g) = Done (Some (TUpdate a Processed)) /\ g_comp g = GLz4 8 /\ 4 < lenN (g_data g).
Proof.
  eexists. split; [|split; [by vm_compute|split; [done|vm_compute; reflexivity]]].
  intros lv b. apply EZ_lawful. vm_compute. discriminate.
Qed.

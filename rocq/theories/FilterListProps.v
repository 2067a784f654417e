(** C07 for the whole list of conditions of a filter. *)
From Verif Require Import Base DataModel FilterModel FilterSpec FilterProofs FilterProps.

(** The RPC form has one condition for each of the filter's, in the same order; each accepts the same data, directly and converted back. *)
Theorem C07_whole_filter E f : match f_filters f with Some cs => Forall (decodable_cond E) cs | None => True end ->
  match f_filters f, get_rpc_filter f with
  | Some cs, Some rs => Forall2 (fun c r =>
      (exists c', from_rpc E r = Done c' /\ forall d, allows E c' d = allows E c d) /\
      forall a d, plain E a d -> data_len (d_data a) = lenN d -> acct_allows E a r = allows E c d) cs rs
  | None, None => True
  | _, _ => False
  end.
Proof.
  unfold get_rpc_filter. destruct (f_filters f) as [cs|]; simpl; [|done]. induction 1 as [|c cs Hc _ IH]; simpl; [constructor|]. constructor; [|done].
  split; [by apply C07_rpc_filter_roundtrip|]. intros a d Hp Hd. by apply C07_rpc_filter_same_meaning.
Qed.
Print Assumptions C07_whole_filter.
Example C07_whole_filter_example : let f := AFilter [] (Some 2) (Some [MemcmpC (Memcmp 2 (MBase58 (bs [3]))); Datasize 3]) in
  Forall (decodable_cond ext_sample) [MemcmpC (Memcmp 2 (MBase58 (bs [3]))); Datasize 3] /\
  get_rpc_filter f = Some [RMemcmp 2 (MBase58 (bs [3])); RDataSize 3].
Proof. split; [|done]. constructor; [simpl; eauto|]. by constructor. Qed.

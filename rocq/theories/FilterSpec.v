(** Specification vocabulary for account filters, independent of how the filter
    stores represent them. *)
From Verif Require Import Base DataModel FilterModel.

Section spec.
Context (E : ext).

(** The bytes a pattern stands for. *)
Definition pattern (d : memcmp_data) : option bytes :=
  match d with
  | MBytes b => Some b
  | MBase58 s => x_b58 E s
  | MBase64 s => x_b64 E s
  end.

(** A condition holds on (uncompressed) data. *)
Definition holds (c : cond) (data : bytes) : Prop :=
  match c with
  | Datasize n => lenN data = n
  | MemcmpC m => exists pat before after,
      pattern (m_data m) = Some pat /\ data = before ++ pat ++ after /\ lenN before = m_offset m
  end.

(** The text patterns of a condition / filter are well-formed text. *)
Definition decodable_cond (c : cond) : Prop :=
  match c with Datasize _ => True | MemcmpC m => is_Some (pattern (m_data m)) end.
Definition decodable (f : afilter) : Prop :=
  forall l, f_filters f = Some l -> Forall decodable_cond l.

(** The account's data can be uncompressed, and is [d]. *)
Definition plain (a : acct) (d : bytes) : Prop := data_bytes E (d_data a) = Done d.

(** Filter [f] selects account [a]: by pubkey, or by owner program and all conditions. *)
Definition selects (f : afilter) (a : acct) : Prop :=
  d_pubkey a ∈ f_accounts f \/
  (f_program f = Some (d_owner a) /\
   forall l, f_filters f = Some l -> exists d, plain a d /\ forall c, c ∈ l -> holds c d).

(** A list of filters selects an account if one of them does. *)
Definition any_selects (fs : list afilter) (a : acct) : Prop := exists f, f ∈ fs /\ selects f a.

(** Only raw-byte patterns. *)
Definition raw_cond (c : cond) : Prop :=
  match c with Datasize _ => True | MemcmpC m => exists b, m_data m = MBytes b end.
Definition raw_filter (f : afilter) : Prop :=
  forall l, f_filters f = Some l -> Forall raw_cond l.

(** A filter that names a whole program. *)
Definition whole_program (f : afilter) : Prop :=
  f_accounts f = [] /\ f_filters f = None.
End spec.

(** What a client finds in the JSON value of an answer, without the server's code. *)
From Verif Require Import Base DataModel FilterSpec Base58Model JsonModel AvecModel AvecSpec JsonSpec JsonGrammar FilterJsonSpec EncodingSpec.
From Coq Require Import String.
#[local] Open Scope string_scope.

(** An entry of an object. *)
Definition entry (k : string) (v x : json) : Prop := exists es, v = JObj es /\ has k x es.
(** A text is a JSON document, of one value only. *)
Definition document_of (t : bytes) (v : json) : Prop := forall v', document t v' <-> v' = v.
(** The text of a public key. *)
Definition key_shown (v : json) (pk : pubkey) : Prop := exists t, v = JStr t /\ base58_text (le 32 pk) t.
(** The bytes [x] as the pair of a text and the name of the encoding. *)
Definition base64_shown (v : json) (x : bytes) : Prop := exists t, v = JArr [JStr t; JStr (txt "base64")] /\ base64_text x t.
Definition base58_shown (v : json) (x : bytes) : Prop := exists t, v = JArr [JStr t; JStr (txt "base58")] /\ base58_text x t.
Definition legacy_shown (v : json) (x : bytes) : Prop := exists t, v = JStr t /\ base58_text x t.
(** An account whose data is [d]; how its data is shown is left to [data]. *)
Definition account_shown (data : json -> Prop) (v : json) (a : acct) (d : bytes) : Prop :=
  entry "lamports" v (JNat (d_lamports a)) /\
  (exists o, entry "owner" v o /\ key_shown o (d_owner a)) /\
  entry "executable" v (JBool (a_executable (d_account a))) /\
  entry "rentEpoch" v (JNat (a_rent_epoch (d_account a))) /\
  entry "space" v (JNat (lenN d)) /\
  exists x, entry "data" v x /\ data x.
(** An account with its key. *)
Definition keyed_shown (data : json -> Prop) (v : json) (a : acct) (d : bytes) : Prop :=
  (exists k, entry "pubkey" v k /\ key_shown k (d_pubkey a)) /\ exists x, entry "account" v x /\ account_shown data x a d.
(** A value with the slot it is from. *)
Definition response_shown (v : json) (slot : N) (x : json) : Prop :=
  (exists c, entry "context" v c /\ entry "slot" c (JNat slot)) /\ entry "value" v x.

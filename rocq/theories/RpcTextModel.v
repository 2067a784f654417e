(** The text of answers: [UiAccountData::Binary] of solana-account-decoder 1.18 lib.rs (called in simulate_from_snapshot/src/rpc_server.rs
    215-232) and the text of [get_snapshot], 170-178.  Texts in base64+zstd and parsed data are not modelled. *)
From Verif Require Import Base DataModel FilterModel StoreModel DispatchModel RpcModel Base58Model Base64Model.
From Coq Require String.
Import String.StringSyntax.
#[local] Delimit Scope string_scope with string.

Definition ui_text (d : ui_data) : option bytes :=
  match d with
  | UText b (UBinary | UBase58) => Some (b58_encode b)
  | UText b UBase64 => Some (b64_encode b)
  | UTooLong _ => Some (String.list_byte_of_string "error: data too large for bs58 encoding")
  | _ => None
  end.
(** rpc_server.rs 177. *)
Definition snapshot_text (r : rpc_answer bytes) : rpc_answer bytes := match r with RPlain b => RPlain (b64_encode b) | r => r end.

(** The JSON text of the results of [getAccountInfo], [getProgramAccounts] and [getSnapshot]: what [serde_json] makes of the values that
    simulate_from_snapshot/src/rpc_server.rs 157-167, 177 and 196-211 returns.  The types are those of solana-rpc-client-api 1.18 response.rs
    and solana-account-decoder 1.18 lib.rs (both [rename_all = "camelCase"]).  Not modelled: the JSON-RPC envelope around the result,
    the error objects, data in base64+zstd and parsed data. *)
From Verif Require Import Base DataModel FilterModel StoreModel DispatchModel RpcModel Base58Model Base64Model RpcTextModel JsonModel.
From Coq Require String.
Import String.StringSyntax.
#[local] Delimit Scope string_scope with string.

Definition key (s : String.string) : bytes := String.list_byte_of_string s.
(** [UiAccountData]: [LegacyBinary(String)] for the old encoding, else [Binary(String, UiAccountEncoding)]; untagged, so a string or a pair. *)
Definition data_json (d : ui_data) : option json :=
  match d, ui_text d with
  | (UText _ UBinary | UTooLong UBinary), Some t => Some (JStr t)
  | (UText _ UBase58 | UTooLong UBase58), Some t => Some (JArr [JStr t; JStr (key "base58"%string)])
  | UText _ UBase64, Some t => Some (JArr [JStr t; JStr (key "base64"%string)])
  | _, _ => None
  end.
(** [UiAccount]; [owner] is [Pubkey::to_string], [space] is always [Some] (rpc_server.rs 215-232 calls [UiAccount::encode]). *)
Definition ui_json (u : ui_account) : option json :=
  d ← data_json (u_data u);
  Some (JObj [(key "lamports"%string, JNat (u_lamports u)); (key "data"%string, d); (key "owner"%string, JStr (pk_text (u_owner u)));
              (key "executable"%string, JBool (u_exec u)); (key "rentEpoch"%string, JNat (u_rent u)); (key "space"%string, JNat (u_space u))]).
(** [RpcKeyedAccount], rpc_server.rs 147-150. *)
Definition keyed_json (r : pubkey * ui_account) : option json :=
  a ← ui_json r.2; Some (JObj [(key "pubkey"%string, JStr (pk_text r.1)); (key "account"%string, a)]).
(** [Response] with [RpcResponseContext], whose [api_version] is [None] and skipped, 158-164 and 197-210. *)
Definition response_json (slot : N) (v : json) : json :=
  JObj [(key "context"%string, JObj [(key "slot"%string, JNat slot)]); (key "value"%string, v)].
(** The result of [getAccountInfo], 196-211. *)
Definition account_result (r : rpc_answer (option ui_account)) : option bytes :=
  match r with
  | RContext s None => Some (print_json (response_json s JNull))
  | RContext s (Some u) => v ← ui_json u; Some (print_json (response_json s v))
  | _ => None
  end.
(** The result of [getProgramAccounts], 157-167: [OptionalContext] is untagged. *)
Definition program_result (r : rpc_answer (list (pubkey * ui_account))) : option bytes :=
  match r with
  | RContext s l => vs ← mapM keyed_json l; Some (print_json (response_json s (JArr vs)))
  | RPlain l => vs ← mapM keyed_json l; Some (print_json (JArr vs))
  | _ => None
  end.
(** The result of [getSnapshot], 177. *)
Definition snapshot_result (r : rpc_answer bytes) : option bytes :=
  match snapshot_text r with RPlain t => Some (print_json (JStr t)) | _ => None end.

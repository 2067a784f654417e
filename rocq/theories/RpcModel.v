(** Model of the JSON-RPC methods of simulate_from_snapshot/src/rpc_server.rs 81-232, over an arbitrary storage.
    Not modelled: the transport, JSON, the spelling of pubkeys in answers (a pubkey stands for its text). *)
From Verif Require Import Base DataModel FilterModel StoreModel DispatchModel.

(** [CommitmentConfig] (solana-sdk 1.18 commitment_config.rs): eight levels, five of them deprecated; [default] is finalized. *)
Inductive rpc_level := LMax | LRecent | LRoot | LSingle | LSingleGossip | LProcessed | LConfirmed | LFinalized.
(** [From<CommitmentConfig> for Commitment], common/src/commitment.rs 14-24, with [is_finalized] and [is_confirmed] of solana-sdk. *)
Definition commitment_of (l : rpc_level) : commitment :=
  match l with
  | LFinalized | LMax | LRoot => Finalized
  | LConfirmed | LSingleGossip | LSingle => Confirmed
  | LProcessed | LRecent => Processed
  end.

(** [UiAccountEncoding] and [UiDataSliceConfig] (solana-account-decoder 1.18). *)
Inductive ui_encoding := UBinary | UBase58 | UBase64 | UJsonParsed | UBase64Zstd.
(** [RpcAccountInfoConfig] and [RpcProgramAccountsConfig] (solana-rpc-client-api 1.18 config.rs). *)
Record acc_config := AccConfig {
  ac_encoding : option ui_encoding; ac_slice : option (N * N); ac_commitment : option rpc_level; ac_min : option N }.
Record gpa_config := GpaConfig { gc_filters : option (list rpc_filter); gc_account : acc_config; gc_with_context : option bool }.

(** [UiAccountData]: the bytes that the text stands for, with the encoding; a base58 text that would be too long is replaced by an
    error message; parsed data is opaque. *)
Inductive ui_data := UText (b : bytes) (e : ui_encoding) | UTooLong (e : ui_encoding) | UParsed (j : bytes).
(** [UiAccount], and [RpcKeyedAccount] with its pubkey. *)
Record ui_account := UiAccount { u_lamports : N; u_data : ui_data; u_owner : pubkey; u_exec : bool; u_rent : N; u_space : N }.
(** [OptionalContext] and errors. *)
Inductive rpc_answer (A : Type) := RContext (slot : N) (v : A) | RPlain (v : A) | RInternalError | RInvalidParams.
Arguments RContext {_} _ _.
Arguments RPlain {_} _.
Arguments RInternalError {_}.
Arguments RInvalidParams {_}.

(** [slice_data] (solana-account-decoder lib.rs). *)
Definition slice_data (d : bytes) (s : option (N * N)) : bytes :=
  match s with
  | None => d
  | Some (off, len) =>
      if lenN d <=? off then []
      else if lenN d - off <? len then drop (N.to_nat off) d
      else take (N.to_nat len) (drop (N.to_nat off) d)
  end.

Section rpc.
(** [E]: decoders; [parse]: the account parsers of solana-account-decoder; [pk_of]: [Pubkey::from_str]; the storage. *)
Context {S : Type} (E : ext) (parse : pubkey -> pubkey -> bytes -> option bytes) (pk_of : bytes -> option pubkey) (J : iface S).

(** [UiAccount::encode] (solana-account-decoder 1.18 lib.rs); compression cannot fail on memory. *)
Definition ui_encode (pk : pubkey) (a : sol_account) (e : ui_encoding) (s : option (N * N)) : ui_account :=
  let d := slice_data (s_data a) s in
  let u := match e with
           | UBinary | UBase58 => if lenN d <=? 128 then UText d e else UTooLong e
           | UBase64 | UBase64Zstd => UText d e
           | UJsonParsed => match parse pk (s_owner a) (s_data a) with Some j => UParsed j | None => UText (s_data a) UBase64 end
           end in
  UiAccount (s_lamports a) u (s_owner a) (s_executable a) (s_rent_epoch a) (lenN (s_data a)).
(** [convert_account_data_to_ui_account], 215-232. *)
Definition convert (a : acct) (c : option acc_config) : res ui_account :=
  s ← to_solana E (d_account a);
  Done (ui_encode (d_pubkey a) s (default UBase64 (c ≫= ac_encoding)) (c ≫= ac_slice)).

(** [filters.iter().map(AmAccountFilterType::from)], 106-112. *)
Fixpoint convert_filters (l : list rpc_filter) : res (list cond) :=
  match l with [] => Done [] | r :: l' => c ← from_rpc E r; cs ← convert_filters l'; Done (c :: cs) end.
(** The accounts of the answer, 142-157. *)
Fixpoint keyed (l : list acct) (min : N) (c : option acc_config) : res (list (pubkey * ui_account)) :=
  match l with
  | [] => Done []
  | a :: l' =>
      if min <=? d_slot a then u ← convert a c; r ← keyed l' min c; Done ((d_pubkey a, u) :: r)
      else keyed l' min c
  end.
(** [max().unwrap_or_default()], 134-138. *)
Definition max_slot (l : list acct) : N := foldr (fun a m => N.max (d_slot a) m) 0 l.
(** [get_program_accounts], 83-168. *)
Definition rpc_gpa (st : S) (prog : bytes) (cfg : option gpa_config) : res (rpc_answer (list (pubkey * ui_account))) :=
  match pk_of prog with
  | None => Done RInternalError
  | Some p =>
      let with_context := default false (cfg ≫= gc_with_context) in
      let c := commitment_of (default LFinalized (cfg ≫= fun x => ac_commitment (gc_account x))) in
      fl ← match cfg ≫= gc_filters with
           | None => Done None
           | Some l => cs ← convert_filters l; Done (Some cs)
           end;
      g ← i_gpa J st p fl c;
      match g with
      | RErr _ => Done RInternalError
      | ROk l =>
          let min := default 0 (cfg ≫= fun x => if default false (gc_with_context x) then ac_min (gc_account x) else None) in
          k ← keyed l min (gc_account <$> cfg);
          Done (if with_context then RContext (max_slot l) k else RPlain k)
      end
  end.
(** [get_account_info], 180-212. *)
Definition rpc_account (st : S) (key : bytes) (cfg : option acc_config) : res (rpc_answer (option ui_account)) :=
  match pk_of key with
  | None => Done RInvalidParams
  | Some pk =>
      g ← i_get J st pk (commitment_of (default LFinalized (cfg ≫= ac_commitment)));
      match g with
      | RErr _ => Done RInternalError
      | ROk (Some a) => u ← convert a cfg; Done (RContext (d_slot a) (Some u))
      | ROk None => Done (RContext 0 None)
      end
  end.
(** [get_snapshot], 170-178: the bytes of the snapshot, as base64 text. *)
Definition rpc_snapshot (st : S) (prog : bytes) : res (rpc_answer bytes) :=
  match pk_of prog with
  | None => Done RInvalidParams
  | Some p => g ← i_snapshot J st p; Done (match g with ROk b => RPlain b | RErr _ => RInternalError end)
  end.
End rpc.

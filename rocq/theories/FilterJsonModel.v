(** Filters as JSON: [Serialize] and [Deserialize] of common/src/account_filter.rs. *)
From Verif Require Import Base DataModel FilterModel Base58Model JsonModel.

(** The names of entries and variants in the text: "accounts", "programId", "filters", "datasize", "memcmp", "offset", "data", "bytes", "base58",
    "base64"; account_filter.rs 9, 17, 62 (camelCase of the identifiers) and 92, 97, 100. *)
Definition k_accounts : bytes := str [97; 99; 99; 111; 117; 110; 116; 115].
Definition k_program_id : bytes := str [112; 114; 111; 103; 114; 97; 109; 73; 100].
Definition k_filters : bytes := str [102; 105; 108; 116; 101; 114; 115].
Definition k_datasize : bytes := str [100; 97; 116; 97; 115; 105; 122; 101].
Definition k_memcmp : bytes := str [109; 101; 109; 99; 109; 112].
Definition k_offset : bytes := str [111; 102; 102; 115; 101; 116].
Definition k_data : bytes := str [100; 97; 116; 97].
Definition k_bytes : bytes := str [98; 121; 116; 101; 115].
Definition k_base58 : bytes := str [98; 97; 115; 101; 53; 56].
Definition k_base64 : bytes := str [98; 97; 115; 101; 54; 52].

(** ** Writing *)
(** The derived [Serialize] of [MemcmpFilterData], [MemcmpFilter] and [AccountFilterType], account_filter.rs 8-21, 61-66 (camelCase, externally tagged). *)
Definition memcmp_data_json (d : memcmp_data) : json :=
  match d with
  | MBytes b => JObj [(k_bytes, JArr ((fun x => JNat (b2n x)) <$> b))]
  | MBase58 s => JObj [(k_base58, JStr s)]
  | MBase64 s => JObj [(k_base64, JStr s)]
  end.
Definition cond_json (c : cond) : json :=
  match c with
  | Datasize n => JObj [(k_datasize, JNat n)]
  | MemcmpC m => JObj [(k_memcmp, JObj [(k_offset, JNat (m_offset m)); (k_data, memcmp_data_json (m_data m))])]
  end.
(** [Serialize for AccountFilter], 84-104. *)
Definition filter_json (f : afilter) : json :=
  JObj ((match f_accounts f with [] => [] | l => [(k_accounts, JArr ((fun pk => JStr (pk_text pk)) <$> l))] end) ++
        (match f_program f with Some p => [(k_program_id, JStr (pk_text p))] | None => [] end) ++
        (match f_filters f with Some cs => [(k_filters, JArr (cond_json <$> cs))] | None => [] end)).
(** [serde_json::to_string] of a filter and of [AccountFilters] (line 193). *)
Definition filter_to_string (f : afilter) : bytes := print_json (filter_json f).
Definition filters_to_string (l : list afilter) : bytes := print_json (JArr (filter_json <$> l)).

(** ** Reading *)
(** The derived [Deserialize]s of [u64], [u8] and [String] parts, from a [Value]; account_filter.rs 11-13, 19, 64, called at 133. *)
Definition de_u64 (v : json) : option N := match v with JNat n => Some n | _ => None end.
Definition de_u8 (v : json) : option byte := match v with JNat n => if n <? 256 then Some (n2b n) else None | _ => None end.
Definition de_string (v : json) : option bytes := match v with JStr s => Some s | _ => None end.
(** [MemcmpFilterData], account_filter.rs 8-14.  An enum all whose variants carry data: an object with one entry, the name of the variant. *)
Definition de_memcmp_data (v : json) : option memcmp_data :=
  match v with
  | JObj [(k, x)] =>
      if bool_decide (k = k_bytes) then match x with JArr l => MBytes <$> mapM de_u8 l | _ => None end
      else if bool_decide (k = k_base58) then MBase58 <$> de_string x
      else if bool_decide (k = k_base64) then MBase64 <$> de_string x
      else None
  | _ => None
  end.
(** [MemcmpFilter], account_filter.rs 16-21.  A struct: an object, whose other entries are ignored, or an array of the fields in order. *)
Definition de_memcmp (v : json) : option memcmp :=
  match v with
  | JObj _ => o ← jget k_offset v; o' ← de_u64 o; d ← jget k_data v; d' ← de_memcmp_data d; Some (Memcmp o' d')
  | JArr [o; d] => o' ← de_u64 o; d' ← de_memcmp_data d; Some (Memcmp o' d')
  | _ => None
  end.
(** [AccountFilterType], account_filter.rs 61-66. *)
Definition de_cond (v : json) : option cond :=
  match v with
  | JObj [(k, x)] =>
      if bool_decide (k = k_datasize) then Datasize <$> de_u64 x
      else if bool_decide (k = k_memcmp) then MemcmpC <$> de_memcmp x
      else None
  | _ => None
  end.
(** [Option<Vec<AccountFilterType>>], account_filter.rs 79, 133. *)
Definition de_filters (v : json) : option (option (list cond)) :=
  match v with JNull => Some None | JArr l => Some <$> mapM de_cond l | _ => None end.
(** [v.as_str().expect(..)], [Pubkey::from_str(..).expect(..)], 117-120 and 126-129. *)
Definition de_key (v : json) : res pubkey := match v with JStr s => unwrap (pk_parse s) | _ => Panic end.
Fixpoint de_keys (l : list json) : res (list pubkey) :=
  match l with [] => Done [] | v :: l' => p ← de_key v; ps ← de_keys l'; Done (p :: ps) end.
(** [Deserialize for AccountFilter], 106-143, once the [Value] of line 111 is there. *)
Definition filter_of_json (v : json) : res afilter :=
  accounts ← match jget k_accounts v with Some (JArr l) => de_keys l | _ => Done [] end;
  program ← match jget k_program_id v with Some p => x ← de_key p; Done (Some x) | None => Done None end;
  filters ← match jget k_filters v with Some fs => unwrap (de_filters fs) | None => Done None end;
  Done (AFilter accounts program filters).
(** [serde_json::from_str::<AccountFilter>]: [None] is the [Err]. *)
Definition filter_from_str (b : bytes) : res (option afilter) :=
  match read_json b with
  | None => Done None
  | Some (v, r) => f ← filter_of_json v; Done (match skip_ws r with [] => Some f | _ => None end)
  end.
(** [serde_json::from_str::<AccountFilters>]: filter after filter. *)
Fixpoint read_filters (fuel : nat) (first : bool) (b : bytes) : res (option (list afilter * bytes)) :=
  match fuel with
  | O => Done None
  | S n =>
      match skip_ws b with
      | [] => Done None
      | c :: r =>
          if is c 93 then Done (Some ([], r))
          else
            match (if first then Some (c :: r)
                   else if is c 44 then match skip_ws r with c' :: r' => if is c' 93 then None else Some (c' :: r') | [] => None end else None) with
            | None => Done None
            | Some s =>
                match read_value 126 s with
                | None => Done None
                | Some (v, r1) =>
                    f ← filter_of_json v;
                    o ← read_filters n false r1;
                    Done (match o with Some (fs, r2) => Some (f :: fs, r2) | None => None end)
                end
            end
      end
  end.
Definition filters_from_str (b : bytes) : res (option (list afilter)) :=
  match skip_ws b with
  | c :: r =>
      if is c 91 then
        o ← read_filters (S (length r)) true r;
        Done (match o with Some (fs, r') => match skip_ws r' with [] => Some fs | _ => None end | None => None end)
      else Done None
  | [] => Done None
  end.

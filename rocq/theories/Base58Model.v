(** Base58 as the [bs58] crate (0.4.0, Bitcoin alphabet) computes it, and the text form of keys: [Pubkey::to_string] and
    [Pubkey::from_str] of solana-sdk 1.18.26, called in common/src/account_filter.rs 93, 97, 118, 127 and in the RPC server.  Library code,
    transcribed from its documented behaviour (not part of /repo). *)
From Verif Require Import Base DataModel.

(** Minimal little-endian digits of [n] in base [b]; none for 0. *)
Fixpoint digits_fuel (fuel : nat) (b n : N) : list N :=
  match fuel with
  | O => []
  | S f => if n =? 0 then [] else n mod b :: digits_fuel f b (n / b)
  end.
Definition radix (b n : N) : list N := digits_fuel (N.size_nat n) b n.
Fixpoint unradix (b : N) (ds : list N) : N := match ds with [] => 0 | d :: ds' => d + b * unradix b ds' end.

(** The alphabet: digits and letters without 0, O, I and l. *)
Definition b58_alphabet : bytes := n2b <$>
  [49;50;51;52;53;54;55;56;57; 65;66;67;68;69;70;71;72; 74;75;76;77;78; 80;81;82;83;84;85;86;87;88;89;90;
   97;98;99;100;101;102;103;104;105;106;107; 109;110;111;112;113;114;115;116;117;118;119;120;121;122].
Definition b58_symbol (d : N) : byte := default "000"%byte (b58_alphabet !! N.to_nat d).
Definition b58_value (c : byte) : option N := N.of_nat ∘ fst <$> list_find (eq c) b58_alphabet.
(** How many zeros a list starts with. *)
Fixpoint zeros (l : list N) : nat := match l with [] => O | d :: l' => if d =? 0 then S (zeros l') else O end.
(** [bs58::encode(b).into_string()]: one '1' for each leading zero byte, then the big-endian number. *)
Definition b58_encode (b : bytes) : bytes := b58_symbol <$> replicate (zeros (b2n <$> b)) 0 ++ reverse (radix 58 (unle (reverse b))).
(** [bs58::decode(s).into_vec()]. *)
Definition b58_decode (s : bytes) : option bytes :=
  ds ← mapM b58_value s;
  Some (n2b <$> replicate (zeros ds) 0 ++ reverse (radix 256 (unradix 58 (reverse ds)))).

(** [Display for Pubkey] and [FromStr for Pubkey]: at most 44 characters, exactly 32 bytes. *)
Definition pk_text (pk : pubkey) : bytes := b58_encode (le 32 pk).
Definition pk_parse (s : bytes) : option pubkey :=
  if 44 <? lenN s then None
  else match b58_decode s with Some b => if lenN b =? 32 then Some (unle b) else None | None => None end.

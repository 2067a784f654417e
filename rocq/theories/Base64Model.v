(** Base64 as [base64::engine::general_purpose::STANDARD] (base64 0.21.7) computes it: standard alphabet, canonical padding
    required, unused bits of the last symbol must be zero.  Called in common/src/account_filter.rs 30-32 and
    simulate_from_snapshot/src/rpc_server.rs 177.  Library code, transcribed from its documented behaviour (not part of /repo). *)
From Verif Require Import Base DataModel Base58Model.

(** The alphabet: capital letters, small letters, digits, '+' and '/'. *)
Definition b64_alphabet : bytes := n2b <$>
  [65;66;67;68;69;70;71;72;73;74;75;76;77;78;79;80;81;82;83;84;85;86;87;88;89;90;
   97;98;99;100;101;102;103;104;105;106;107;108;109;110;111;112;113;114;115;116;117;118;119;120;121;122;
   48;49;50;51;52;53;54;55;56;57;43;47].
Definition b64_symbol (d : N) : byte := default "000"%byte (b64_alphabet !! N.to_nat d).
Definition b64_value (c : byte) : option N := N.of_nat ∘ fst <$> list_find (eq c) b64_alphabet.
(** '=' *)
Definition b64_pad : byte := n2b 61.
(** [Engine::encode]. *)
Fixpoint b64_encode (b : bytes) : bytes :=
  match b with
  | [] => []
  | [x] => [b64_symbol (b2n x / 4); b64_symbol (b2n x mod 4 * 16); b64_pad; b64_pad]
  | [x; y] => [b64_symbol (b2n x / 4); b64_symbol (b2n x mod 4 * 16 + b2n y / 16); b64_symbol (b2n y mod 16 * 4); b64_pad]
  | x :: y :: z :: r =>
      [b64_symbol (b2n x / 4); b64_symbol (b2n x mod 4 * 16 + b2n y / 16); b64_symbol (b2n y mod 16 * 4 + b2n z / 64); b64_symbol (b2n z mod 64)] ++ b64_encode r
  end.
(** [Engine::decode]: four symbols, ... *)
Definition b64_quad (c1 c2 c3 c4 : byte) : option bytes :=
  s1 ← b64_value c1; s2 ← b64_value c2; s3 ← b64_value c3; s4 ← b64_value c4;
  Some [n2b (s1 * 4 + s2 / 16); n2b (s2 mod 16 * 16 + s3 / 4); n2b (s3 mod 4 * 64 + s4)].
(** ... the last of which may be padding. *)
Definition b64_last (c1 c2 c3 c4 : byte) : option bytes :=
  if bool_decide (c4 = b64_pad) then
    if bool_decide (c3 = b64_pad) then
      s1 ← b64_value c1; s2 ← b64_value c2; if s2 mod 16 =? 0 then Some [n2b (s1 * 4 + s2 / 16)] else None
    else
      s1 ← b64_value c1; s2 ← b64_value c2; s3 ← b64_value c3;
      if s3 mod 4 =? 0 then Some [n2b (s1 * 4 + s2 / 16); n2b (s2 mod 16 * 16 + s3 / 4)] else None
  else b64_quad c1 c2 c3 c4.
Fixpoint b64_decode (s : bytes) : option bytes :=
  match s with
  | [] => Some []
  | c1 :: c2 :: c3 :: c4 :: r =>
      match r with
      | [] => b64_last c1 c2 c3 c4
      | _ => x ← b64_quad c1 c2 c3 c4; y ← b64_decode r; Some (x ++ y)
      end
  | _ => None
  end.
(** The decoders of memcmp patterns, account_filter.rs 27-32, are these two. *)
Record standard_texts (E : ext) : Prop := { std_b58 s : x_b58 E s = b58_decode s; std_b64 s : x_b64 E s = b64_decode s }.

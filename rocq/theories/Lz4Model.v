(** The raw LZ4 block format, as [lz4::block] 1.28 (liblz4) reads and writes it; called from
    token_account_storage/src/inmemory_token_storage.rs 771-776 and 784. *)
From Verif Require Import Base DataModel TokenStoreModel.

(** Lengths of 15 and more continue in bytes, the last of which is not 255. *)
Fixpoint ext_len (b : bytes) : option (N * bytes) :=
  match b with
  | [] => None
  | x :: b' => if b2n x =? 255 then match ext_len b' with Some (n, r) => Some (255 + n, r) | None => None end else Some (b2n x, b')
  end.
Definition nibble_len (n : N) (b : bytes) : option (N * bytes) :=
  if n =? 15 then match ext_len b with Some (m, r) => Some (15 + m, r) | None => None end else Some (n, b).
(** A match copies bytes already written, possibly its own; the output is kept reversed. *)
Fixpoint copy_match (n : nat) (off : nat) (out : bytes) : option bytes :=
  match n with
  | O => Some out
  | S n' => match out !! (off - 1)%nat with Some x => copy_match n' off (x :: out) | None => None end
  end.
(** [LZ4_decompress_safe] (called by inmemory_token_storage.rs 784 through [decompress]): sequences of literals and a
    match; the last sequence has no match.  A match must leave room for 5 more bytes, and literals that
    end within 12 bytes of the output buffer or 8 of the input must be the last.  An offset of 0 is an error here. *)
Fixpoint lz4_seqs (fuel : nat) (max : N) (b : bytes) (out : bytes) : option bytes :=
  match fuel with
  | O => None
  | S fuel' =>
      match b with
      | [] => None
      | tok :: b1 =>
          match nibble_len (b2n tok / 16) b1 with
          | None => None
          | Some (n, b2) =>
              if lenN b2 <? n then None
              else
                let rest := drop (N.to_nat n) b2 in
                let out1 := rev (take (N.to_nat n) b2) ++ out in
                if (max <? lenN out1 + 12) || (lenN rest <? 8)
                then match rest with [] => if max <? lenN out1 then None else Some (rev out1) | _ => None end
                else
                  match rest with
                  | o1 :: o2 :: rest2 =>
                      let off := b2n o1 + 256 * b2n o2 in
                      match nibble_len (b2n tok mod 16) rest2 with
                      | None => None
                      | Some (m, rest3) =>
                          if (off =? 0) || (lenN out1 <? off) || (max <? lenN out1 + (m + 4) + 5) then None
                          else match copy_match (N.to_nat (m + 4)) (N.to_nat off) out1 with
                               | Some out2 => lz4_seqs fuel' max rest3 out2
                               | None => None
                               end
                      end
                  | _ => None
                  end
          end
      end
  end.
Definition lz4_block_dec (max : N) (b : bytes) : option bytes := lz4_seqs (S (length b)) max b [].

(** A compressor that finds no matches (a legal output of [compress], inmemory_token_storage.rs 771-776) ... *)
Definition lit_block (b : bytes) : bytes :=
  if lenN b <? 15 then n2b (16 * lenN b) :: b
  else n2b 240 :: replicate (N.to_nat ((lenN b - 15) / 255)) (n2b 255) ++ n2b ((lenN b - 15) mod 255) :: b.
(** ... except in a run of 24 zero bytes, which becomes one literal, a match of 18 bytes at distance 1 and the five last literals. *)
Definition zero_block : bytes := n2b <$> [0x1E; 0; 1; 0; 0x50; 0; 0; 0; 0; 0].
Definition sample_comp (b : bytes) : option bytes :=
  Some (if bool_decide (b = replicate 24 (n2b 0)) then zero_block else lit_block b).
Definition lz4_sample : lz4x := Lz4x sample_comp lz4_block_dec.

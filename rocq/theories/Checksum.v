(** * pylisp/utils/checksum.py *)
From Verif Require Import Base.

(** utils/checksum.py:16-19, the loop over 16-bit words with its running sum [c]; the last
    case is not reached because the message was padded. *)
Fixpoint oc_loop (c : Z) (m : bytes) : Z :=
  match m with
  | a :: b :: r =>
      let next_16_bits := Z.shiftl (byte_val a) 8 + byte_val b in
      let tmp := c + next_16_bits in
      oc_loop (Z.land tmp 65535 + Z.shiftr tmp 16) r
  | _ => c
  end.

(** utils/checksum.py:8-22 *)
Definition ones_complement (m : bytes) : Z :=
  let m := if Nat.odd (length m) then m ++ [zero_byte] else m in
  Z.land (Z.lnot (oc_loop 0 m)) 65535.

(** * The digests authentication rests on: hashlib.sha1 and hashlib.sha256 (FIPS 180-4) and hmac.new (RFC 2104), as
    map_register.py:9-10, 168-191, map_notify.py:106-129 and info_message.py:121-144 use them.

    These are Python's standard library, not pylisp: they are written down here from the standards so that the theorems about
    authentication, which hold for every function with digests of the right size, can be used for the real one. *)
From Verif Require Import Base Auth.

(** ** 32 bit words *)
Definition w32 : Z := 2 ^ 32.
Definition add32 (l : list Z) : Z := fold_left Z.add l 0 mod w32.
Definition rotl (n x : Z) : Z := Z.lor (Z.shiftl x n mod w32) (Z.shiftr x (32 - n)).
Definition rotr (n x : Z) : Z := rotl (32 - n) x.
Definition not32 (x : Z) : Z := w32 - 1 - x.
Definition xor3 (a b c : Z) : Z := Z.lxor (Z.lxor a b) c.
Definition ch (x y z : Z) : Z := Z.lxor (Z.land x y) (Z.land (not32 x) z).
Definition maj (x y z : Z) : Z := xor3 (Z.land x y) (Z.land x z) (Z.land y z).
Fixpoint words (l : bytes) : list Z :=
  match l with
  | a :: b :: c :: d :: l => (((byte_val a * 256 + byte_val b) * 256 + byte_val c) * 256 + byte_val d) :: words l
  | _ => []
  end.
Definition word_bytes (x : Z) : bytes :=
  [byte_of_Z (x / 2 ^ 24 mod 256); byte_of_Z (x / 2 ^ 16 mod 256); byte_of_Z (x / 2 ^ 8 mod 256); byte_of_Z (x mod 256)].
(** ** FIPS 180-4, 5.1.1 and 5.2.1: padding and blocks of 16 words *)
Definition pad (m : bytes) : bytes :=
  m ++ byte_of_Z 128 :: repeat zero_byte (Z.to_nat ((55 - blen m) mod 64)) ++
  word_bytes (8 * blen m / w32 mod w32) ++ word_bytes (8 * blen m mod w32).
Fixpoint blocks (n : nat) (l : list Z) : list (list Z) :=
  match n with O => [] | S n => firstn 16 l :: blocks n (skipn 16 l) end.
Definition blocks_of (m : bytes) : list (list Z) := let w := words (pad m) in blocks (length w / 16) w.
Definition at_ (l : list Z) (i : nat) : Z := nth i l 0.

(** ** SHA-1, FIPS 180-4 4.1.1, 4.2.1, 5.3.1, 6.1.2; [w] are the words W(t)..W(t+15) *)
Definition f1 (t : nat) (b c d : Z) : Z :=
  if (t <? 20)%nat then ch b c d else if (t <? 40)%nat then xor3 b c d else if (t <? 60)%nat then maj b c d else xor3 b c d.
Definition k1 (t : nat) : Z :=
  if (t <? 20)%nat then 0x5a827999 else if (t <? 40)%nat then 0x6ed9eba1 else if (t <? 60)%nat then 0x8f1bbcdc else 0xca62c1d6.
Fixpoint rounds1 (n t : nat) (w : list Z) (s : Z * Z * Z * Z * Z) : Z * Z * Z * Z * Z :=
  match n with
  | O => s
  | S n =>
      let '(a, b, c, d, e) := s in
      let x := add32 [rotl 5 a; f1 t b c d; e; k1 t; at_ w 0] in
      let w' := skipn 1 w ++ [rotl 1 (Z.lxor (xor3 (at_ w 13) (at_ w 8) (at_ w 2)) (at_ w 0))] in
      rounds1 n (S t) w' (x, a, rotl 30 b, c, d)
  end.
Definition block1 (h : Z * Z * Z * Z * Z) (w : list Z) : Z * Z * Z * Z * Z :=
  let '(h0, h1, h2, h3, h4) := h in
  let '(a, b, c, d, e) := rounds1 80 0 w h in
  (add32 [a; h0], add32 [b; h1], add32 [c; h2], add32 [d; h3], add32 [e; h4]).
Definition sha1 (m : bytes) : bytes :=
  let '(a, b, c, d, e) := fold_left block1 (blocks_of m) (0x67452301, 0xefcdab89, 0x98badcfe, 0x10325476, 0xc3d2e1f0) in
  word_bytes a ++ word_bytes b ++ word_bytes c ++ word_bytes d ++ word_bytes e.

(** ** SHA-256, FIPS 180-4 4.1.2, 4.2.2, 5.3.3, 6.2.2 *)
Definition k256 : list Z :=
  [0x428a2f98; 0x71374491; 0xb5c0fbcf; 0xe9b5dba5; 0x3956c25b; 0x59f111f1; 0x923f82a4; 0xab1c5ed5;
   0xd807aa98; 0x12835b01; 0x243185be; 0x550c7dc3; 0x72be5d74; 0x80deb1fe; 0x9bdc06a7; 0xc19bf174;
   0xe49b69c1; 0xefbe4786; 0x0fc19dc6; 0x240ca1cc; 0x2de92c6f; 0x4a7484aa; 0x5cb0a9dc; 0x76f988da;
   0x983e5152; 0xa831c66d; 0xb00327c8; 0xbf597fc7; 0xc6e00bf3; 0xd5a79147; 0x06ca6351; 0x14292967;
   0x27b70a85; 0x2e1b2138; 0x4d2c6dfc; 0x53380d13; 0x650a7354; 0x766a0abb; 0x81c2c92e; 0x92722c85;
   0xa2bfe8a1; 0xa81a664b; 0xc24b8b70; 0xc76c51a3; 0xd192e819; 0xd6990624; 0xf40e3585; 0x106aa070;
   0x19a4c116; 0x1e376c08; 0x2748774c; 0x34b0bcb5; 0x391c0cb3; 0x4ed8aa4a; 0x5b9cca4f; 0x682e6ff3;
   0x748f82ee; 0x78a5636f; 0x84c87814; 0x8cc70208; 0x90befffa; 0xa4506ceb; 0xbef9a3f7; 0xc67178f2].
Definition S0 (x : Z) : Z := xor3 (rotr 2 x) (rotr 13 x) (rotr 22 x).
Definition S1 (x : Z) : Z := xor3 (rotr 6 x) (rotr 11 x) (rotr 25 x).
Definition s0 (x : Z) : Z := xor3 (rotr 7 x) (rotr 18 x) (Z.shiftr x 3).
Definition s1 (x : Z) : Z := xor3 (rotr 17 x) (rotr 19 x) (Z.shiftr x 10).
Definition st8 : Type := Z * Z * Z * Z * (Z * Z * Z * Z).
Fixpoint rounds2 (ks : list Z) (w : list Z) (s : st8) : st8 :=
  match ks with
  | [] => s
  | k :: ks =>
      let '(a, b, c, d, (e, f, g, h)) := s in
      let t1 := add32 [h; S1 e; ch e f g; k; at_ w 0] in
      let t2 := add32 [S0 a; maj a b c] in
      let w' := skipn 1 w ++ [add32 [s1 (at_ w 14); at_ w 9; s0 (at_ w 1); at_ w 0]] in
      rounds2 ks w' (add32 [t1; t2], a, b, c, (add32 [d; t1], e, f, g))
  end.
Definition block2 (s : st8) (w : list Z) : st8 :=
  let '(h0, h1, h2, h3, (h4, h5, h6, h7)) := s in
  let '(a, b, c, d, (e, f, g, h)) := rounds2 k256 w s in
  (add32 [a; h0], add32 [b; h1], add32 [c; h2], add32 [d; h3], (add32 [e; h4], add32 [f; h5], add32 [g; h6], add32 [h; h7])).
Definition sha256 (m : bytes) : bytes :=
  let '(a, b, c, d, (e, f, g, h)) :=
    fold_left block2 (blocks_of m) (0x6a09e667, 0xbb67ae85, 0x3c6ef372, 0xa54ff53a, (0x510e527f, 0x9b05688c, 0x1f83d9ab, 0x5be0cd19)) in
  word_bytes a ++ word_bytes b ++ word_bytes c ++ word_bytes d ++ word_bytes e ++ word_bytes f ++ word_bytes g ++ word_bytes h.

(** ** HMAC, RFC 2104 section 2; both digests have blocks of 64 bytes *)
Definition xor_byte (a b : byte) : byte :=
  match a, b with
  | Byte a7 a6 a5 a4 a3 a2 a1 a0, Byte b7 b6 b5 b4 b3 b2 b1 b0 =>
      Byte (xorb a7 b7) (xorb a6 b6) (xorb a5 b5) (xorb a4 b4) (xorb a3 b3) (xorb a2 b2) (xorb a1 b1) (xorb a0 b0)
  end.
Definition block_key (h : bytes -> bytes) (key : bytes) : bytes :=
  let k := if blen key >? 64 then h key else key in k ++ repeat zero_byte (64 - length k).
Definition hmac (h : bytes -> bytes) (key msg : bytes) : bytes :=
  let k := block_key h key in
  h (map (xor_byte (byte_of_Z 0x5c)) k ++ h (map (xor_byte (byte_of_Z 0x36)) k ++ msg)).
(** hmac.new(key, msg, digestmod).digest(), by key id: map_register.py:169-176, 191 *)
Definition real_hm (key_id : Z) (key msg : bytes) : bytes :=
  if key_id =? 1 then hmac sha1 key msg else if key_id =? 2 then hmac sha256 key msg else [].

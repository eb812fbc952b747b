(** * The model against what is written down in the repository: the unit tests, the examples in docstrings and the captured messages of
    scripts/test, all computed by the model.  Not theorems about all inputs: a check that the model is one of this code. *)
From Coq Require Import String Ascii.
From Verif Require Import Base Afi Records Control Registry Auth Packet Sha.
Import Packet.

(** hexadecimal text, and text *)
Definition nibble (c : ascii) : Z := let n := Z.of_nat (nat_of_ascii c) in if n <? 58 then n - 48 else n - 87.
Fixpoint hex (s : string) : bytes :=
  match s with
  | String a (String b s) => byte_of_Z (16 * nibble a + nibble b) :: hex s
  | _ => []
  end.
Fixpoint txt (s : string) : bytes :=
  match s with String a s => byte_of_Z (Z.of_nat (nat_of_ascii a)) :: txt s | EmptyString => [] end.
Local Open Scope string_scope.

(** ** unittests/test_utils_afi.py and utils/afi.py:21-38 *)
Definition reads (h : string) (pl : option Z) (a : addr) : Prop :=
  read_afi pl (bits_of_bytes (hex h)) = Ok (a, []) /\ w_afi a = Ok (bits_of_bytes (hex h)).
Definition v6_cafe : Z := 0x20010db80102abcd000000000000cafe.
Definition v6_net : Z := 0x20010db80102abcd0000000000000000.
Example test_afi_0 : reads "0000" None ANone /\ reads "0000" (Some 0) ANone /\ read_afi (Some 16) (bits_of_bytes (hex "0000")) = Err EValue.
Proof. vm_compute. auto. Qed.
Example test_afi_1 : reads "0001c00002ab" None (AIP V4 3221226155) /\ reads "0001c0000200" (Some 24) (ANet V4 3221225984 24) /\
  read_afi (Some 24) (bits_of_bytes (hex "0001c00002ab")) = Err EValue.
Proof. vm_compute. auto. Qed.
Example test_afi_2 : reads "000220010db80102abcd000000000000cafe" None (AIP V6 v6_cafe) /\
  reads "000220010db80102abcd0000000000000000" (Some 64) (ANet V6 v6_net 64) /\
  read_afi (Some 64) (bits_of_bytes (hex "000220010db80102abcd000000000000cafe")) = Err EValue.
Proof. vm_compute. auto. Qed.
Example test_afi_65535 : read_afi None (bits_of_bytes (hex "ffffabcdabcdabcd")) = Err EValue.
Proof. vm_compute. auto. Qed.

(** ** unittests/test_packet_data.py: the bytes, and the packet read back from them is the one that was made, as sanitize() left it
    (utils.py:38-52); test_bad_echo_nonce_request and test_bad_lsb_content are about values that are no booleans, which the model's types
    exclude *)
Definition makes (d : dh) (p : bytes) (h : string) : Prop :=
  pkt_to_bytes (PData d (PRaw p)) = Ok (hex h) /\ (let* d' := sanitize_dh d in Ok (PData d' (PRaw p))) = pkt_from_bytes (KData true) (hex h).
Definition refuses (d : dh) : Prop := sanitize_dh d = Err EValue.
Fixpoint alternating (n : nat) : list bool := match n with O => [] | S n => true :: false :: alternating n end.
Definition plain : dh := DH false None None None None None.
Example test_data_empty : makes plain [] "0000000000000000".
Proof. vm_compute. auto. Qed.
Example test_data_echo : makes (DH true None None None None None) [] "0000000000000000" /\ makes (DH true (Some (txt "ABC")) None None None None) [] "a041424300000000".
Proof. vm_compute. auto. Qed.
Example test_data_nonce : makes (DH false (Some (txt "ABC")) None None None None) [] "8041424300000000" /\ refuses (DH false (Some (txt "ABCDEFGH")) None None None None).
Proof. vm_compute. auto. Qed.
Example test_data_versions : refuses (DH false None (Some 1234) None None None) /\ refuses (DH false None None (Some 1234) None None) /\
  makes (DH false None (Some 0x123) (Some 0x456) None None) [] "1012345600000000" /\ refuses (DH false (Some (txt "XYZ")) (Some 0x123) (Some 0x456) None None) /\
  refuses (DH false None (Some 9999) (Some 1234) None None) /\ refuses (DH false None (Some 1234) (Some 9999) None None).
Proof. vm_compute. auto 10. Qed.
Example test_data_lsb : makes (DH false None None None (Some (alternating 16)) None) [] "4000000055555555" /\ refuses (DH false None None None (Some (alternating 8)) None).
Proof. vm_compute. auto 10. Qed.
Example test_data_instance : makes (DH false None None None None (Some 11259375)) [] "08000000abcdef00" /\ refuses (DH false None None None None (Some 112593750)) /\
  makes (DH false None None None (Some (alternating 4)) (Some 11259375)) [] "48000000abcdef55" /\ refuses (DH false None None None (Some (alternating 16)) (Some 11259375)).
Proof. vm_compute. auto 10. Qed.
Example test_data_payload : makes plain (txt "SomePayload") "0000000000000000536f6d655061796c6f6164".
Proof. vm_compute. auto. Qed.
(** data.py:114-134 and 217-220 *)
Definition doc_data : bytes := hex
  "c033d3c10000000745c0005835400000ff06094a254d38204d45d1a30016f597a1c3c7406718bf1b50180ff0793f0000b555e59ff5ba6aad33d875c600fd8c1fc5268078f365ee199179fbd09d09d690193622a6b70bcbc7bf5f20dda4258801".
Example doc_data_from_bytes : match pkt_from_bytes (KData true) doc_data with Ok (PData h p) => d_echo h = false /\ d_nonce h = Some (B [51; 0xd3; 0xc1]) /\
  d_sver h = None /\ d_dver h = None /\ d_lsb h = Some (true :: true :: true :: repeat false 29) /\ d_iid h = None /\ pkt_to_bytes p = Ok (skipn 8 doc_data)
  | _ => False end.
Proof. vm_compute. auto 10. Qed.
Example doc_data_to_bytes : pkt_to_bytes (PData (DH false (Some (txt "XyZ")) None None None (Some 1234)) (PRaw (txt "SomeDummyPayloadData")))
  = Ok (B [0x88] ++ txt "XyZ" ++ B [0; 4; 0xd2; 0] ++ txt "SomeDummyPayloadData")%list.
Proof. vm_compute. reflexivity. Qed.

(** ** unittests/test_packet_control_map_request.py; map_request.py:187-211 and 282-288 *)
Example test_map_request : let m := MReq false false false false false (zeros 9) (repeat zero_byte 8) ANone [AIP V4 0x01020304] [ANet V4 3221225984 24] None in
  let b := hex "100000010000000000000000000000010102030400180001c0000200" in mreq_to_bytes m = Ok b /\ mreq_from_bytes b = Ok m.
Proof. vm_compute. auto. Qed.
Example doc_map_request_from_bytes : pkt_from_bytes KCtl (hex "13000001ae92b5574f849cd00001ac101f0300015cfe1cbd00200001ac101f01") =
  Ok (PCtl (CReq (MReq false true true false false (zeros 9) (hex "ae92b5574f849cd0") (AIP V4 0xac101f03) [AIP V4 0x5cfe1cbd] [ANet V4 0xac101f01 32] None))).
Proof. vm_compute. reflexivity. Qed.
Example doc_map_request_to_bytes : mreq_to_bytes (MReq false false false false false (zeros 9) (repeat zero_byte 8) ANone [AIP V4 0xc0000201] [ANet V6 (0x20010db8 * 2 ^ 96) 32] None)
  = Ok (hex "10000001000000000000000000000001c00002010020000220010db8000000000000000000000000").
Proof. vm_compute. reflexivity. Qed.

(** ** encapsulated_control_message.py:101-118 and 171-173 *)
Definition doc_ecm : bytes := hex
  "800000006e000000004811402a0086400001ffff000000000000000a2a02000000000000000000000000000010f610f60048739610000201ee924adef97a97d70000000157c3c44d00015f61535d0002200109e085000b000000000000000001000f00022a020000000000000000000000000000".
Example doc_ecm_from_bytes : match pkt_from_bytes KCtl doc_ecm with
  | Ok (PECM security ddt _ _ _ p) => security = false /\ ddt = false /\ pkt_to_bytes p = Ok (skipn 4 doc_ecm)
  | _ => False end.
Proof. vm_compute. auto. Qed.
Example doc_ecm_to_bytes : pkt_to_bytes (PECM false false false false (zeros 26) (PRaw (txt "Dummy"))) = Ok (B [0x80; 0; 0; 0] ++ txt "Dummy")%list.
Proof. vm_compute. reflexivity. Qed.

(** ** unittests/test_packet_control_type_registry.py *)
Example test_registry : let valid1 := PyClass 1 [RControl] (Some 1) in let valid2 := PyClass 2 [RControl] (Some 1) in
  register_type_class RControl [] valid1 = ([(1, valid1)], Ok tt) /\
  register_type_class RControl [(1, valid1)] valid1 = ([(1, valid1)], Ok tt) /\
  register_type_class RControl [(1, valid1)] valid2 = ([(1, valid1)], Err EValue) /\
  register_type_class RControl [] (PyClass 3 [] None) = ([], Err EValue) /\
  register_type_class RControl [] (PyClass 4 [RControl] (Some 16)) = ([], Err EValue).
Proof. vm_compute. auto 10. Qed.

(** ** FIPS 180-4, RFC 2202 and RFC 4231: the digests *)
Example sha_abc : sha1 (txt "abc") = hex "a9993e364706816aba3e25717850c26c9cd0d89d" /\
  sha256 (txt "abc") = hex "ba7816bf8f01cfea414140de5dae2223b00361a396177a9cb410ff61f20015ad" /\
  sha1 (txt "abcdbcdecdefdefgefghfghighijhijkijkljklmklmnlmnomnopnopq") = hex "84983e441c3bd26ebaae4aa1f95129e5e54670f1" /\
  sha256 (txt "abcdbcdecdefdefgefghfghighijhijkijkljklmklmnlmnomnopnopq") = hex "248d6a61d20638b8e5c026930c3e6039a33ce45964ff2167f6ecedd419db06c1" /\
  sha1 [] = hex "da39a3ee5e6b4b0d3255bfef95601890afd80709" /\
  sha256 [] = hex "e3b0c44298fc1c149afbf4c8996fb92427ae41e4649b934ca495991b7852b855".
Proof. vm_compute. auto 10. Qed.
Example hmac_vectors : hmac sha1 (repeat (byte_of_Z 11) 20) (txt "Hi There") = hex "b617318655057264e28bc0b6fb378c8ef146be00" /\
  hmac sha1 (txt "Jefe") (txt "what do ya want for nothing?") = hex "effcdf6ae5eb2fa2d27416d5f184df9c259a7c79" /\
  hmac sha1 (repeat (byte_of_Z 170) 80) (txt "Test Using Larger Than Block-Size Key - Hash Key First") = hex "aa4ae5e15272d00e95705637ce8a3b55ed402112" /\
  hmac sha256 (txt "Jefe") (txt "what do ya want for nothing?") = hex "5bdcc146bf60754e6a042426089575c75a003f089d2739839dec58b964ec3843" /\
  hmac sha256 (repeat (byte_of_Z 170) 131) (txt "Test Using Larger Than Block-Size Key - Hash Key First") = hex "60e431591ee0b67f0d8a26aacbf5b77f8e0bc6213728c5140546040f0ee37f54".
Proof. vm_compute. auto 10. Qed.

(** ** scripts/test: Map-Registers captured from other implementations are read, written back the same, and their authentication data
    verifies with the right one of the two keys of the script *)
Definition captured1 : bytes := hex
  "32000102e4436f2d3ff8c89600010014f9cb9f835523cbf71536240a8d0edd989e8a6430000005a003301000000000022a0086400001000000000000000000003264ff000005000157c3c44d0a64ff00000500015f61535d3264ff0000050002200109e085000b000000000000000001000005a003301000000000022a0086401009000000000000000000003264ff000005000157c3c44d0a64ff00000500015f61535d3264ff0000050002200109e085000b0000000000000000015d611bb0e7a5daa92328a824c059a66a0000000000000000".
Definition captured2 : bytes := hex
  "32000503231160949b9d0f19000100144f7d688298392e6baed4ac0dd38419aedb715792000005a0031e100000000001254d39383264ff000005000157c3c44d0a64ff00000500015f61535d3264ff0000050002200109e085000b000000000000000001000005a0031a100000000001254d38403264ff000005000157c3c44d0a64ff00000500015f61535d3264ff0000050002200109e085000b000000000000000001000005a0031f100000000001254d38203264ff000005000157c3c44d0a64ff00000500015f61535d3264ff0000050002200109e085000b0000000000000000015d611bb0e7a5daa92328a824c059a66a0000000000000000".
Definition checks (d : bytes) (good bad : string) : Prop := match mreg_from_bytes d with
  | Ok m => mreg_to_bytes m = Ok d /\ snd (verify real_hm (AReg m) (txt good)) = Ok true /\ snd (verify real_hm (AReg m) (txt bad)) = Ok false
  | Err _ => False end.
Example captured1_checks : checks captured1 "BlaBla" "SomeStrangePassword123".
Proof. vm_compute. auto. Qed.
Example captured2_checks : checks captured2 "SomeStrangePassword123" "BlaBla".
Proof. vm_compute. auto. Qed.
(** the same message with a reserved bit cleared (what an earlier lispd wrote for it) does not verify *)
Definition cleared : bytes := hex
  "32000103231160949b9d0f19000100144f7d688298392e6baed4ac0dd38419aedb715792000005a0031e100000000001254d39383264ff000005000157c3c44d0a64ff00000500015f61535d3264ff0000050002200109e085000b000000000000000001000005a0031a100000000001254d38403264ff000005000157c3c44d0a64ff00000500015f61535d3264ff0000050002200109e085000b000000000000000001000005a0031f100000000001254d38203264ff000005000157c3c44d0a64ff00000500015f61535d3264ff0000050002200109e085000b0000000000000000015d611bb0e7a5daa92328a824c059a66a0000000000000000".
Example cleared_refused : firstn 2 cleared = firstn 2 captured2 /\ skipn 3 cleared = skipn 3 captured2 /\ cleared <> captured2 /\
  match mreg_from_bytes cleared with Ok m => snd (verify real_hm (AReg m) (txt "SomeStrangePassword123")) = Ok false | Err _ => False end.
Proof. split; [vm_compute; reflexivity|]. split; [vm_compute; reflexivity|]. split; [intros E; vm_compute in E; discriminate|]. vm_compute. reflexivity. Qed.

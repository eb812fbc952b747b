(** * The registration of scripts/map_register.  The queries of map_resolve and ddt_query are [query_message] in Daemon.v *)
From Verif Require Import Base Afi Records Control Auth Tree.

(** scripts/map_register:35-47 with the defaults of locator_record.py:26-41, map_reply_record.py:40-56 and
    map_register.py:23-46; the script's prefix is 37.77.62.0/24 and the locator 127.0.0.1 *)
Definition tool_locator : loc := Loc 1 100 255 0 (repeat false 13) true false true (AIP V4 (127 * 2 ^ 24 + 1)).
Definition tool_record (p : pfx) : mrec :=
  MRec 1440 0 true (repeat false 16) 0 (ANet (x_fam p) (x_net p) (x_len p)) [tool_locator].
Definition tool_register (p : pfx) (nonce : bytes) : mreg :=
  MReg true false false (repeat false 1) (repeat false 15) nonce 1 [] [tool_record p] 0 0.
(** scripts/map_register:48, 53: the bytes sent, with authentication data for [key] (the script's is 'testje') *)
Definition tool_register_bytes (hm : Z -> bytes -> bytes -> bytes) (p : pfx) (key nonce : bytes) : res bytes :=
  match insert hm (AReg (tool_register p nonce)) key with
  | (AReg g, Ok _) => mreg_to_bytes g
  | (_, Ok _) => Err EType
  | (_, Err e) => Err e
  end.

(** * The Info-Request of an ETR: application/lispd/address_tree/etr_node.py:52-80 *)
From Verif Require Import Base Afi Records Control Auth Tree Net Etr.

(** etr_node.py:60-63 and the defaults of info_message.py:27-45 *)
Definition new_info_request (p : pfx) (r : etrr) (nonce : bytes) : info :=
  Info false (repeat false 27) nonce (tr_keyid r) [] 1440 (repeat false 8) (ANet (x_fam p) (x_net p) (x_len p)) ANone.
(** etr_node.py:60-64: the message with its authentication data *)
Definition make_info_request (hm : Z -> bytes -> bytes -> bytes) (p : pfx) (r : etrr) (nonce : bytes) : amsg * res unit :=
  insert hm (AInfo (new_info_request p r nonce)) (tr_key r).
(** etr_node.py:76-80: the calls of sendto, and what send_message gives *)
Definition send_info_request (m : info) (r : etrr) (net : nat -> res Z) (socks : list sock) : list attempt * res sm_result :=
  send_message (info_to_bytes m) net 4342 0 socks [AIP (fst (tr_ms r)) (snd (tr_ms r))].

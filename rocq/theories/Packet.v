(** * Packets: pylisp/packet/ip/, pylisp/packet/lisp/data.py and the Encapsulated Control Message.

    A payload is either bytes ([PRaw]) or a packet object.  [bytes(payload)] of a packet object is
    its [to_bytes()] (protocol.py:23-27; bytes is str in Python 2).  Attributes are taken to have
    the types their documentation gives (integers, booleans, byte strings); addresses are any
    address value. *)
From Verif Require Import Base Afi Records Control Checksum.

(** attributes of IPv4Packet: packet/ip/ipv4.py:24-51 (protocol is an alias of next_header, 53-60) *)
Record v4h := V4H {
  h_tos : Z; h_id : Z; h_df : bool; h_mf : bool; h_off : Z; h_ttl : Z; h_proto : Z;
  h_src : addr; h_dst : addr; h_opts : bytes }.

(** attributes of IPv6Packet: packet/ip/ipv6/base.py:23-37 *)
Record v6h := V6H {
  x_tc : Z; x_flow : Z; x_nh : Z; x_hop : Z; x_src : addr; x_dst : addr }.

(** attributes of DataPacket: packet/lisp/data.py:21-34 *)
Record dh := DH {
  d_echo : bool; d_nonce : option bytes; d_sver : option Z; d_dver : option Z;
  d_lsb : option (list bool); d_iid : option Z }.

(** All packet classes: ipv4.py:24-51, ipv6/base.py:23-37, hop_by_hop_options_header.py:15-20,
    destination_options_header.py:15-20, routing_header.py:15-23, fragment_header.py:14-22,
    no_next_header.py:14-20, udp.py:17-24, data.py:21-34, encapsulated_control_message.py:19-33,
    and the control messages of Control.v. *)
Inductive pkt :=
| PRaw (b : bytes)
| PIPv4 (h : v4h) (p : pkt)
| PIPv6 (h : v6h) (p : pkt)
| PHop (nh : Z) (opts : bytes) (p : pkt)
| PDst (nh : Z) (opts : bytes) (p : pkt)
| PRoute (nh rtype segleft : Z) (data : bytes) (p : pkt)
| PFrag (nh off : Z) (mf : bool) (id : Z) (p : pkt)
| PNoNext (p : pkt)
| PUDP (sport dport ck : Z) (p : pkt)
| PData (d : dh) (p : pkt)
| PECM (sec ddt rtr relayed : bool) (rsv : bits) (p : pkt)
| PCtl (c : ctl).

(** [payload.header_type] when the payload is a Protocol object (protocol.py:70-71): ipv4.py:21,
    ipv6/base.py:20, udp.py:15 and the [header_type] of each extension header.  DataPacket and
    ControlMessage are not Protocols. *)
Definition header_type (p : pkt) : option Z :=
  match p with
  | PIPv4 _ _ => Some 4 | PIPv6 _ _ => Some 41 | PHop _ _ _ => Some 0 | PDst _ _ _ => Some 60
  | PRoute _ _ _ _ _ => Some 43 | PFrag _ _ _ _ _ => Some 44 | PNoNext _ => Some 59
  | PUDP _ _ _ _ => Some 17 | _ => None
  end.

(** protocol.py:57-71 [Protocol.sanitize] *)
Definition fix_nh (nh : Z) (p : pkt) : Z := match header_type p with Some t => t | None => nh end.

(** ipv4.py:68-137 *)
Definition sanitize_v4 (h : v4h) (p : pkt) : res v4h :=
  let* _ := guard (fits 8 (h_tos h)) EValue in
  let* _ := guard (fits 16 (h_id h)) EValue in
  let* _ := guard (fits 13 (h_off h)) EValue in
  let* _ := guard (negb (h_df h && (0 <? h_off h))) EValue in
  let* _ := guard (fits 8 (h_ttl h)) EValue in
  let* _ := match h_src h with AIP V4 _ => Ok tt | _ => Err EValue end in
  let* _ := match h_dst h with AIP V4 _ => Ok tt | _ => Err EValue end in
  Ok (V4H (h_tos h) (h_id h) (h_df h) (h_mf h) (h_off h) (h_ttl h) (fix_nh (h_proto h) p)
          (h_src h) (h_dst h) (h_opts h)).

(** ipv6/base.py:64-101 *)
Definition sanitize_v6 (h : v6h) (p : pkt) : res v6h :=
  let* _ := guard (fits 8 (x_tc h)) EValue in
  let* _ := guard (fits 20 (x_flow h)) EValue in
  let* _ := guard (fits 8 (x_hop h)) EValue in
  let* _ := match x_src h with AIP V6 _ => Ok tt | _ => Err EValue end in
  let* _ := match x_dst h with AIP V6 _ => Ok tt | _ => Err EValue end in
  Ok (V6H (x_tc h) (x_flow h) (fix_nh (x_nh h) p) (x_hop h) (x_src h) (x_dst h)).

(** data.py:36-107 *)
Definition opt_none {A} (o : option A) : bool := match o with None => true | Some _ => false end.
Definition sanitize_dh (d : dh) : res dh :=
  let* _ := match d_nonce d with Some n => guard (blen n =? 3) EValue | None => Ok tt end in
  let* _ := guard (opt_none (d_nonce d) || (opt_none (d_sver d) && opt_none (d_dver d))) EValue in
  let* _ := match d_lsb d with
            | Some l => guard (lenZ l =? (if opt_none (d_iid d) then 32 else 8)) EValue
            | None => Ok tt end in
  let echo := d_echo d && negb (opt_none (d_nonce d)) in
  let* _ := match d_sver d, d_dver d with
            | None, None => Ok tt
            | Some s, Some t => let* _ := guard (fits 12 s) EValue in guard (fits 12 t) EValue
            | _, _ => Err EValue
            end in
  let* _ := match d_iid d with Some i => guard (fits 24 i) EValue | None => Ok tt end in
  Ok (DH echo (d_nonce d) (d_sver d) (d_dver d) (d_lsb d) (d_iid d)).

(** [int(address)] where the sanitize step has made sure it is an address *)
Definition ip_int (a : addr) : Z := match a with AIP _ z | ANet _ z _ => z | _ => 0 end.

(** ipv4.py:271 / 80:96: the bits of the header checksum *)
Definition set_ck (h : bits) (c : bits) : bits := firstn 80 h ++ c ++ skipn 96 h.

(** ** Serialising.  ipv4.py:232-288 after sanitize; [pb] are the payload bytes *)
Definition w_v4 (h : v4h) (pb : res bytes) : res bytes :=
  let* v := w_uint 4 4 in
  let* ihl := w_uint 4 (5 + (blen (h_opts h) + 3) / 4) in
  let* tos := w_uint 8 (h_tos h) in
  let* pb := pb in
  let* tl := w_uint 16 (20 + blen pb) in
  let* id := w_uint 16 (h_id h) in
  let* off := w_uint 13 (h_off h) in
  let* ttl := w_uint 8 (h_ttl h) in
  let* pr := w_uint 8 (h_proto h) in
  let* s := w_uint 32 (ip_int (h_src h)) in
  let* d := w_uint 32 (ip_int (h_dst h)) in
  let pad := Z.to_nat ((4 - blen (h_opts h) mod 4) mod 4) in
  let hdr := v ++ ihl ++ tos ++ tl ++ id ++ (false :: h_df h :: h_mf h :: off) ++ ttl ++ pr ++ zeros 16
               ++ s ++ d ++ bits_of_bytes (h_opts h) ++ zeros (8 * pad) in
  let* hb := bytes_of_bits hdr in
  let* ck := w_uint 16 (ones_complement hb) in
  let* hb := bytes_of_bits (set_ck hdr ck) in
  Ok (hb ++ pb).

(** ipv6/base.py:158-190 after sanitize *)
Definition w_v6 (h : v6h) (pb : res bytes) : res bytes :=
  let* v := w_uint 4 6 in
  let* tc := w_uint 8 (x_tc h) in
  let* fl := w_uint 20 (x_flow h) in
  let* pb := pb in
  let* pl := w_uint 16 (blen pb) in
  let* nh := w_uint 8 (x_nh h) in
  let* hop := w_uint 8 (x_hop h) in
  let* s := w_uint 128 (ip_int (x_src h)) in
  let* d := w_uint 128 (ip_int (x_dst h)) in
  let* hb := bytes_of_bits (v ++ tc ++ fl ++ pl ++ nh ++ hop ++ s ++ d) in
  Ok (hb ++ pb).

(** hop_by_hop_options_header.py:62-82, destination_options_header.py:62-82 *)
Definition w_opts (nh : Z) (opts : bytes) (pb : res bytes) : res bytes :=
  let* n := w_uint 8 nh in
  let unpadded := blen opts + 2 in
  let* l := w_uint 8 ((unpadded + 7) / 8 - 1) in
  let pad := Z.to_nat ((8 - unpadded mod 8) mod 8) in
  let* hb := bytes_of_bits (n ++ l ++ bits_of_bytes opts ++ zeros (8 * pad)) in
  let* pb := pb in
  Ok (hb ++ pb).

(** routing_header.py:71-97 *)
Definition w_route (nh rt sl : Z) (data : bytes) (pb : res bytes) : res bytes :=
  let* n := w_uint 8 nh in
  let unpadded := blen data + 4 in
  let* l := w_uint 8 ((unpadded + 7) / 8 - 1) in
  let* r := w_uint 8 rt in
  let* s := w_uint 8 sl in
  let pad := Z.to_nat ((8 - unpadded mod 8) mod 8) in
  let* hb := bytes_of_bits (n ++ l ++ r ++ s ++ bits_of_bytes data ++ zeros (8 * pad)) in
  let* pb := pb in
  Ok (hb ++ pb).

(** fragment_header.py:68-93 *)
Definition w_frag (nh off : Z) (mf : bool) (id : Z) (pb : res bytes) : res bytes :=
  let* n := w_uint 8 nh in
  let* o := w_uint 13 off in
  let* i := w_uint 32 id in
  let* hb := bytes_of_bits (n ++ zeros 8 ++ o ++ zeros 2 ++ (mf :: i)) in
  let* pb := pb in
  Ok (hb ++ pb).

(** udp.py:26-39 and 187-207 *)
Definition w_udp (sport dport ck : Z) (pb : res bytes) : res bytes :=
  let* _ := guard (fits 16 sport) EValue in
  let* _ := guard (fits 16 dport) EValue in
  let* s := w_uint 16 sport in
  let* d := w_uint 16 dport in
  let* pb := pb in
  let* l := w_uint 16 (blen pb + 8) in
  let* c := w_uint 16 ck in
  let* hb := bytes_of_bits (s ++ d ++ l ++ c) in
  Ok (hb ++ pb).

(** data.py:213-266 after sanitize *)
Definition w_data (d : dh) (pb : res bytes) : res bytes :=
  let flags := [negb (opt_none (d_nonce d)); negb (opt_none (d_lsb d)); d_echo d;
                negb (opt_none (d_sver d) && opt_none (d_dver d)); negb (opt_none (d_iid d))] in
  let* nv := match d_nonce d, d_sver d, d_dver d with
             | Some n, _, _ => Ok (bits_of_bytes n)
             | None, None, None => Ok (zeros 24)
             | None, Some s, Some t => let* a := w_uint 12 s in let* b := w_uint 12 t in Ok (a ++ b)
             | None, _, _ => Err EType
             end in
  let* i := match d_iid d with Some i => w_uint 24 i | None => Ok [] end in
  let l := match d_lsb d with Some l => rev l | None => zeros (if opt_none (d_iid d) then 32 else 8) end in
  let* hb := bytes_of_bits (flags ++ zeros 3 ++ nv ++ i ++ l) in
  let* pb := pb in
  Ok (hb ++ pb).

(** encapsulated_control_message.py:35-70 and 167-193 *)
Definition w_ecm (sec ddt : bool) (rsv : bits) (pb : res bytes) : res bytes :=
  let* _ := guard (negb sec) ENotImpl in
  let* t := w_uint 4 8 in
  let* pb := pb in
  let* hb := bytes_of_bits (t ++ (sec :: ddt :: rsv)) in
  Ok (hb ++ pb).

(** [to_bytes()] *)
Fixpoint pkt_to_bytes (p : pkt) : res bytes :=
  match p with
  | PRaw b => Ok b
  | PIPv4 h p => let* h := sanitize_v4 h p in w_v4 h (pkt_to_bytes p)
  | PIPv6 h p => let* h := sanitize_v6 h p in w_v6 h (pkt_to_bytes p)
  | PHop nh o p => w_opts nh o (pkt_to_bytes p)
  | PDst nh o p => w_opts nh o (pkt_to_bytes p)
  | PRoute nh rt sl d p => w_route nh rt sl d (pkt_to_bytes p)
  | PFrag nh off mf id p => w_frag nh off mf id (pkt_to_bytes p)
  | PNoNext p => pkt_to_bytes p
  | PUDP s d c p => w_udp s d c (pkt_to_bytes p)
  | PData d p => let* d := sanitize_dh d in w_data d (pkt_to_bytes p)
  | PECM sec ddt _ _ rsv p => w_ecm sec ddt rsv (pkt_to_bytes p)
  | PCtl c => to_bytes w_ctl c
  end.

(** ** Parsing *)
(** which [from_bytes] is called; the flag is [decode_payload] *)
Inductive kind :=
| KIPv4 (dec : bool) | KIPv6 (dec : bool) | KHop | KDst | KRoute | KFrag | KNoNext | KUDP
| KData (dec : bool) | KCtl.

(** protocol_registry.get_type_class after all modules registered themselves:
    ipv4.py:292, ipv6/base.py:200, udp.py:210 and the last line of each extension header *)
Definition registry (n : Z) : option kind :=
  if n =? 0 then Some KHop else if n =? 4 then Some (KIPv4 true) else if n =? 17 then Some KUDP
  else if n =? 41 then Some (KIPv6 true) else if n =? 43 then Some KRoute
  else if n =? 44 then Some KFrag else if n =? 59 then Some KNoNext
  else if n =? 60 then Some KDst else None.

Section Layer.
  (** the [from_bytes] of the payload's class *)
  Variable rec : kind -> bytes -> res pkt.

  (** ipv4.py:213-217, ipv6/base.py:144-147, hop_by_hop_options_header.py:53-55 etc. *)
  Definition decode (dec : bool) (nh : Z) (b : bytes) : res pkt :=
    if dec then match registry nh with Some k => rec k b | None => Ok (PRaw b) end
    else Ok (PRaw b).

  (** data.py:195-206, encapsulated_control_message.py:149-160 *)
  Definition decode_ip (dec : bool) (s : bits) : res pkt :=
    match s with
    | [] => Ok (PRaw [])
    | _ => let* '(v, _) := rd_uint 4 s in
           let* b := bytes_of_bits s in
           if v =? 4 then rec (KIPv4 dec) b
           else if v =? 6 then rec (KIPv6 dec) b
           else Ok (PRaw b)
    end.

  (** ipv4.py:138-230 *)
  Definition rd_v4 (dec : bool) (s : bits) : res pkt :=
    let* '(v, s) := rd_uint 4 s in
    let* _ := guard (v =? 4) EValue in
    let* '(ihl, s) := rd_uint 4 s in
    let* _ := guard (5 <=? ihl) EValue in
    let* '(peek, _) := rd_bits (Z.to_nat (ihl * 32 - 8)) s in
    let header := enc 4 4 ++ enc 4 ihl ++ peek in
    let* '(tos, s) := rd_uint 8 s in
    let* '(tl, s) := rd_uint 16 s in
    let* _ := guard (ihl * 4 <=? tl) EValue in
    let* '(id, s) := rd_uint 16 s in
    let* '(reserved, s) := rd_bool s in
    let* '(df, s) := rd_bool s in
    let* '(mf, s) := rd_bool s in
    let* _ := guard (negb reserved) EValue in
    let* '(off, s) := rd_uint 13 s in
    let* '(ttl, s) := rd_uint 8 s in
    let* '(pr, s) := rd_uint 8 s in
    let* '(ck, s) := rd_uint 16 s in
    let* hb := bytes_of_bits (set_ck header (zeros 16)) in
    let* _ := guard (ones_complement hb =? ck) EValue in
    let* '(src, s) := rd_uint 32 s in
    let* '(dst, s) := rd_uint 32 s in
    let* '(opts, s) := rd_bytes (Z.to_nat ((ihl - 5) * 4)) s in
    let* '(pb, s) := rd_bytes (Z.to_nat (tl - ihl * 4)) s in
    let* p := decode dec pr pb in
    let* _ := match s with [] => Ok tt | _ => Err EValue end in
    let* h := sanitize_v4 (V4H tos id df mf off ttl pr (AIP V4 src) (AIP V4 dst) opts) p in
    Ok (PIPv4 h p).

  (** ipv6/base.py:103-156 *)
  Definition rd_v6 (dec : bool) (s : bits) : res pkt :=
    let* '(v, s) := rd_uint 4 s in
    let* _ := guard (v =? 6) EValue in
    let* '(tc, s) := rd_uint 8 s in
    let* '(fl, s) := rd_uint 20 s in
    let* '(pl, s) := rd_uint 16 s in
    let* '(nh, s) := rd_uint 8 s in
    let* '(hop, s) := rd_uint 8 s in
    let* '(src, s) := rd_uint 128 s in
    let* '(dst, s) := rd_uint 128 s in
    let* '(pb, s) := rd_bytes (Z.to_nat pl) s in
    let* p := decode dec nh pb in
    let* _ := match s with [] => Ok tt | _ => Err EValue end in
    let* h := sanitize_v6 (V6H tc fl nh hop (AIP V6 src) (AIP V6 dst)) p in
    Ok (PIPv6 h p).

  (** hop_by_hop_options_header.py:28-60, destination_options_header.py:28-60 *)
  Definition rd_opts (con : Z -> bytes -> pkt -> pkt) (s : bits) : res pkt :=
    let* '(nh, s) := rd_uint 8 s in
    let* '(l, s) := rd_uint 8 s in
    let* '(o, s) := rd_bytes (Z.to_nat ((l + 1) * 8 - 2)) s in
    let* b := bytes_of_bits s in
    let* p := decode true nh b in
    Ok (con nh o p).

  (** routing_header.py:31-69 *)
  Definition rd_route (s : bits) : res pkt :=
    let* '(nh, s) := rd_uint 8 s in
    let* '(l, s) := rd_uint 8 s in
    let* '(rt, s) := rd_uint 8 s in
    let* '(sl, s) := rd_uint 8 s in
    let* '(d, s) := rd_bytes (Z.to_nat ((l + 1) * 8 - 4)) s in
    let* b := bytes_of_bits s in
    let* p := decode true nh b in
    Ok (PRoute nh rt sl d p).

  (** fragment_header.py:30-66 *)
  Definition rd_frag (s : bits) : res pkt :=
    let* '(nh, s) := rd_uint 8 s in
    let* '(_, s) := rd_bits 8 s in
    let* '(off, s) := rd_uint 13 s in
    let* '(_, s) := rd_bits 2 s in
    let* '(mf, s) := rd_bool s in
    let* '(id, s) := rd_uint 32 s in
    let* b := bytes_of_bits s in
    Ok (PFrag nh off mf id (PRaw b)).

  (** udp.py:138-185 *)
  Definition rd_udp (s : bits) : res pkt :=
    let* '(sp, s) := rd_uint 16 s in
    let* '(dp, s) := rd_uint 16 s in
    let* '(l, s) := rd_uint 16 s in
    let* _ := guard (8 <=? l) EValue in
    let* '(ck, s) := rd_uint 16 s in
    let* '(pb, s) := rd_bytes (Z.to_nat (l - 8)) s in
    let* p := if (sp =? 4341) || (dp =? 4341) then rec (KData true) pb
              else if (sp =? 4342) || (dp =? 4342) then rec KCtl pb
              else Ok (PRaw pb) in
    let* _ := match s with [] => Ok tt | _ => Err EValue end in
    let* _ := guard (fits 16 sp) EValue in
    let* _ := guard (fits 16 dp) EValue in
    Ok (PUDP sp dp ck p).

  (** data.py:109-211 *)
  Definition rd_data (dec : bool) (s : bits) : res pkt :=
    let* '(n, s) := rd_bool s in
    let* '(l, s) := rd_bool s in
    let* '(e, s) := rd_bool s in
    let* '(v, s) := rd_bool s in
    let* '(i, s) := rd_bool s in
    let* '(_, s) := rd_bits 3 s in
    let* '(nonce, sv, dv, s) :=
       if n : bool then let* '(x, s) := rd_bytes 3 s in Ok (Some x, None, None, s)
       else if v : bool then
         let* '(a, s) := rd_uint 12 s in let* '(b, s) := rd_uint 12 s in Ok (None, Some a, Some b, s)
       else let* '(_, s) := rd_bits 24 s in Ok (None, None, None, s) in
    let* '(iid, s) := if i : bool then let* '(x, s) := rd_uint 24 s in Ok (Some x, s) else Ok (None, s) in
    let lsb_bits := if i then 8%nat else 32%nat in
    let* '(x, s) := rd_bits lsb_bits s in
    let lsb := if l then Some (rev x) else None in
    let* p := decode_ip dec s in
    let* d := sanitize_dh (DH e nonce sv dv lsb iid) in
    Ok (PData d p).

  (** encapsulated_control_message.py:96-165 *)
  Definition rd_ecm (s : bits) : res pkt :=
    let* '(t, s) := rd_uint 4 s in
    let* _ := guard (t =? 8) EValue in
    let* '(sec, s) := rd_bool s in
    let* '(ddt, s) := rd_bool s in
    let* '(rsv, s) := rd_bits 26 s in
    let* _ := guard (negb sec) ENotImpl in
    let* p := decode_ip true s in
    Ok (PECM sec ddt false false rsv p).

  (** control/base.py:34-59; control/type_registry.py: the registered types are 1-4 and 6-8
      (last line of each message module) *)
  Definition rd_control (s : bits) : res pkt :=
    let* '(t, _) := rd_uint 4 s in
    if t =? 8 then rd_ecm s
    else let* '(c, _) := rd_ctl t s in Ok (PCtl c).

  Definition layer (k : kind) (d : bytes) : res pkt :=
    let s := bits_of_bytes d in
    match k with
    | KIPv4 dec => rd_v4 dec s
    | KIPv6 dec => rd_v6 dec s
    | KHop => rd_opts PHop s
    | KDst => rd_opts PDst s
    | KRoute => rd_route s
    | KFrag => rd_frag s
    | KNoNext => Ok (PNoNext (PRaw d))     (* no_next_header.py:28-46 *)
    | KUDP => rd_udp s
    | KData dec => rd_data dec s
    | KCtl => rd_control s
    end.
End Layer.

Fixpoint parse (fuel : nat) (k : kind) (d : bytes) : res pkt :=
  match fuel with
  | O => Err EFuel
  | S f => layer (parse f) k d
  end.
(** [from_bytes], with fuel that always suffices (PacketProofs.v) *)
Definition pkt_from_bytes (k : kind) (d : bytes) : res pkt := parse (S (length d)) k d.

(** ** Inspection *)
(** ipv6/base.py:53-62 (the loop; it descends into the payload) *)
Fixpoint v6_final (nh : Z) (p : pkt) : Z * pkt :=
  match p with
  | PHop n _ q | PDst n _ q | PRoute n _ _ _ q | PFrag n _ _ _ q => v6_final n q
  | _ => (nh, p)
  end.
(** ipv6/base.py:39-51 *)
Fixpoint v6_fragmented (p : pkt) : bool :=
  match p with
  | PFrag _ _ _ _ _ => true
  | PHop _ _ q | PDst _ _ q | PRoute _ _ _ _ q => v6_fragmented q
  | _ => false
  end.
(** [is_fragmented]: ipv4.py:62-63, ipv6/base.py:39-51 *)
Definition is_fragmented (p : pkt) : res bool :=
  match p with
  | PIPv4 h _ => Ok (h_mf h || negb (h_off h =? 0))
  | PIPv6 _ q => Ok (v6_fragmented q)
  | _ => Err EAttr
  end.
(** [get_final_payload]: ipv4.py:65-66, ipv6/base.py:53-62 *)
Definition get_final_payload (p : pkt) : res (Z * pkt) :=
  match p with
  | PIPv4 h q => Ok (h_proto h, q)
  | PIPv6 h q => Ok (v6_final (x_nh h) q)
  | _ => Err EAttr
  end.
(** encapsulated_control_message.py:80-94 *)
Definition get_udp (ecm : pkt) : res pkt :=
  match ecm with
  | PECM _ _ _ _ _ p =>
      let* _ := match p with PIPv4 _ _ | PIPv6 _ _ => Ok tt | _ => Err EValue end in
      let* f := is_fragmented p in
      let* _ := guard (negb f) EValue in
      let* '(n, u) := get_final_payload p in
      let* _ := guard (n =? 17) EValue in
      match u with PUDP _ _ _ _ => Ok u | _ => Err EValue end
  | _ => Err EAttr
  end.
(** udp.py:106-136 *)
Definition is_data (p : pkt) : bool := match p with PData _ _ => true | _ => false end.
Definition is_control (p : pkt) : bool := match p with PECM _ _ _ _ _ _ | PCtl _ => true | _ => false end.
Definition get_lisp_message (only_data only_control : bool) (u : pkt) : res pkt :=
  match u with
  | PUDP s d _ p =>
      let data := (s =? 4341) || (d =? 4341) in
      let ctrl := (s =? 4342) || (d =? 4342) in
      let* _ := guard (negb (data && ctrl)) EValue in
      if data || only_data then if is_data p then Ok p else Err EValue
      else if ctrl || only_control then if is_control p then Ok p else Err EValue
      else Err EValue
  | _ => Err EAttr
  end.

(** ** UDP checksum.  A UDP message object: *)
Record udp := UDP { u_sport : Z; u_dport : Z; u_ck : Z; u_payload : pkt }.
Definition udp_pkt (u : udp) : pkt := PUDP (u_sport u) (u_dport u) (u_ck u) (u_payload u).

(** udp.py:44-72 *)
Definition pseudo_header (u : udp) (s d : addr) : res bytes :=
  let* pb := pkt_to_bytes (u_payload u) in
  let len := 8 + blen pb in
  match s, d with
  | AIP V4 a, AIP V4 b =>
      let* x := w_uint 32 a in let* y := w_uint 32 b in let* z := w_uint 16 17 in let* l := w_uint 16 len in
      bytes_of_bits (x ++ y ++ z ++ l)
  | AIP V6 a, AIP V6 b =>
      let* x := w_uint 128 a in let* y := w_uint 128 b in let* l := w_uint 32 len in let* z := w_uint 32 17 in
      bytes_of_bits (x ++ y ++ l ++ z)
  | _, _ => Err EValue
  end.
Definition set_uck (u : udp) (c : Z) : udp := UDP (u_sport u) (u_dport u) c (u_payload u).
(** udp.py:74-95: returns the message as it is afterwards and the result *)
Definition calculate_checksum (u : udp) (s d : addr) : udp * res Z :=
  match pseudo_header u s d with
  | Err e => (u, Err e)
  | Ok ph =>
      let u0 := set_uck u 0 in
      match pkt_to_bytes (udp_pkt u0) with
      | Err e => (u0, Err e)
      | Ok m => let c := ones_complement (ph ++ m) in
                (set_uck u0 (u_ck u), Ok (if c =? 0 then 65535 else c))
      end
  end.
(** udp.py:97-104 *)
Definition verify_checksum (u : udp) (s d : addr) : udp * res bool :=
  if u_ck u =? 0 then (u, Ok true)
  else let (u', r) := calculate_checksum u s d in
       (u', let* c := r in Ok (u_ck u =? c)).

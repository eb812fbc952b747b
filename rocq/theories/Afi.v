(** * Addresses: the used part of [ipaddress], pylisp/utils/afi.py and pylisp/utils/lcaf/. *)
From Verif Require Import Base.

(** ** [ipaddress] (py2-ipaddress backport, third party; trusted reading of its documentation) *)
Inductive fam := V4 | V6.
Definition width (v : fam) : nat := match v with V4 => 32 | V6 => 128 end%nat.
Definition wz (v : fam) : Z := Z.of_nat (width v).
Definition fam_eqb (a b : fam) : bool :=
  match a, b with V4, V4 => true | V6, V6 => true | _, _ => false end.

(** Coordinates of LCAFGeoAddress: utils/lcaf/geo_address.py:17-33 *)
Record geo := Geo {
  g_north : bool; g_latd : Z; g_latm : Z; g_lats : Z;
  g_east : bool; g_lond : Z; g_lonm : Z; g_lons : Z; g_alt : Z }.

(** Every Python value that is used as an address: [None], IPv4Address/IPv6Address,
    IPv4Network/IPv6Network, and the six LCAF classes.
    utils/lcaf/null_address.py:11-16, afi_list_address.py:14-19, instance_address.py:14-21,
    autonomous_system_address.py:14-20, geo_address.py:14-33, nat_traversal_address.py:12-23 *)
Inductive addr :=
| ANone
| AIP (v : fam) (z : Z)
| ANet (v : fam) (z : Z) (len : Z)
| LNull
| LList (l : list addr)
| LInst (iid : Z) (a : addr) (mask : Z)
| LAs (asn : Z) (a : addr)
| LGeo (g : geo) (a : addr)
| LNat (msport etrport : Z) (global ms private : addr) (rtrs : list addr).

Definition is_lcaf (a : addr) : bool :=
  match a with ANone | AIP _ _ | ANet _ _ _ => false | _ => true end.

(** [isinstance(x, (IPv4Address, IPv6Address))] *)
Definition is_ip (a : addr) : bool := match a with AIP _ _ => true | _ => false end.
(** [isinstance(x, (IPv4Network, IPv6Network))] *)
Definition is_net (a : addr) : bool := match a with ANet _ _ _ => true | _ => false end.

(** The network address of [z] under a mask of [n] bits. *)
Definition mask_to (v : fam) (n z : Z) : Z := z / 2 ^ (wz v - n) * 2 ^ (wz v - n).

(** Invariants the [ipaddress] constructors establish: in range, host bits zero. *)
Definition wf_ip (a : addr) : bool :=
  match a with
  | AIP v z => fits (width v) z
  | ANet v z n => fits (width v) z && (0 <=? n) && (n <=? wz v) && (mask_to v n z =? z)
  | _ => true
  end.

(** Does [unicode(x)] raise TypeError?  u','.join() of non-strings does
    (utils/lcaf/afi_list_address.py:21-22); the other classes format their address
    (instance_address.py:23-27, autonomous_system_address.py:22-23, geo_address.py:35-36,
    nat_traversal_address.py:25-29, null_address.py:18-19). *)
Fixpoint fmt_raises (a : addr) : bool :=
  match a with
  | ANone | AIP _ _ | ANet _ _ _ | LNull => false
  | LList l => match l with [] => false | _ => true end
  | LInst _ a _ => fmt_raises a
  | LAs _ a => fmt_raises a
  | LGeo _ a => fmt_raises a
  | LNat _ _ g m p _ => fmt_raises m || fmt_raises p || fmt_raises g
  end.

(** [ipaddress.ip_network(x)]: for non-address objects it parses [unicode(x)], which only
    names a network when x is an instance-0 LCAF around an address
    (instance_address.py:26-27); everything else is ValueError.  C126_read_as_network derives this from the texts. *)
Fixpoint ip_network (a : addr) : res addr :=
  match a with
  | ANone => Err EValue
  | AIP v z => Ok (ANet v z (wz v))
  | ANet v z n => Ok (ANet v z n)
  | LInst iid a' _ =>
      if iid =? 0 then ip_network a'
      else if fmt_raises a' then Err EType else Err EValue
  | _ => if fmt_raises a then Err EType else Err EValue
  end.

(** [ip_address(unicode(x))], send_message.py:37, etr_node.py:559, 602: the text of an instance-0 LCAF is that of the
    address in it (instance_address.py:23-27), the texts of all others name no address (C126_read_as_address) *)
Fixpoint as_address (a : addr) : res (fam * Z) :=
  match a with
  | AIP v z => Ok (v, z)
  | LInst iid a' _ =>
      if iid =? 0 then as_address a'
      else if fmt_raises a' then Err EType else Err EValue
  | _ => if fmt_raises a then Err EType else Err EValue
  end.

(** [network.supernet(new_prefix=n)] *)
Definition supernet (net : addr) (n : Z) : res addr :=
  match net with
  | ANet v z len =>
      if len =? 0 then Ok net
      else if len <? n then Err EValue
      else if n <? 0 then Err EValue
      else Ok (ANet v (mask_to v n z) n)
  | _ => Err EAttr
  end.

(** [net[0] == orig] where [orig] is any address value: only an equal IP address is equal. *)
Definition first_is (net orig : addr) : bool :=
  match net, orig with
  | ANet v z _, AIP v' z' => fam_eqb v v' && (z =? z')
  | _, _ => false
  end.

(** The block repeated in utils/afi.py:59-64, 70-75; afi_list_address.py:42-47;
    instance_address.py:48-53; autonomous_system_address.py:43-48; geo_address.py:83-88. *)
Definition with_prefix (a : addr) (pl : option Z) : res addr :=
  match pl with
  | None => Ok a
  | Some n =>
      let* net := ip_network a in
      let* s := supernet net n in
      if first_is s a then Ok s else Err EValue
  end.

(** ** Encoding: utils/afi.py:87-116, utils/lcaf/base.py:70-99 *)
Definition AFI_LCAF : Z := 16387.

(** utils/lcaf/base.py:70-99 [to_bytes]: rsvd1 (8), flags (8), type (8), rsvd2 (8), length (16), data. *)
Definition lcaf_wrap (type rsvd2 : Z) (data : res bits) : res bits :=
  let* t := w_uint 8 type in
  let* r := w_uint 8 rsvd2 in
  let* d := data in
  let* n := w_uint 16 (Z.of_nat (length d) / 8) in
  Ok (enc 16 AFI_LCAF ++ zeros 8 ++ zeros 8 ++ t ++ r ++ n ++ d).

(** utils/lcaf/geo_address.py:104-118 (the part before the address) *)
Definition w_geo (g : geo) : res bits :=
  let* a := w_uint 15 (g_latd g) in
  let* b := w_uint 8 (g_latm g) in
  let* c := w_uint 8 (g_lats g) in
  let* d := w_uint 15 (g_lond g) in
  let* e := w_uint 8 (g_lonm g) in
  let* f := w_uint 8 (g_lons g) in
  let* h := w_int 32 (g_alt g) in
  Ok ((g_north g :: a) ++ b ++ c ++ (g_east g :: d) ++ e ++ f ++ h).

(** utils/afi.py:87-116 [get_bitstream_for_afi_address] with the [_to_data_bytes] of each LCAF:
    null_address.py:35-36; afi_list_address.py:53-57; instance_address.py:60-67;
    autonomous_system_address.py:54-57; geo_address.py:104-118; nat_traversal_address.py:60-67. *)
Fixpoint w_afi (a : addr) : res bits :=
  match a with
  | ANone => Ok (zeros 16)
  | AIP v z | ANet v z _ =>
      let* b := w_uint (width v) z in
      Ok (enc 16 (match v with V4 => 1 | V6 => 2 end) ++ b)
  | LNull => lcaf_wrap 0 0 (Ok [])
  | LList l => lcaf_wrap 1 0 (concatM w_afi l)
  | LInst iid a mask =>
      lcaf_wrap 2 mask (let* i := w_uint 32 iid in let* d := w_afi a in Ok (i ++ d))
  | LAs asn a =>
      lcaf_wrap 3 0 (let* i := w_uint 32 asn in let* d := w_afi a in Ok (i ++ d))
  | LGeo g a =>
      lcaf_wrap 5 0 (let* i := w_geo g in let* d := w_afi a in Ok (i ++ d))
  | LNat mp ep g m p rtrs =>
      lcaf_wrap 7 0
        (let* x := w_uint 16 mp in
         let* y := w_uint 16 ep in
         let* bg := w_afi g in
         let* bm := w_afi m in
         let* bp := w_afi p in
         let* br := concatM w_afi rtrs in
         Ok (x ++ y ++ bg ++ bm ++ bp ++ br))
  end.

(** ** Decoding *)

(** [while data.pos != data.len: l.append(read(data))]:
    afi_list_address.py:40-48, nat_traversal_address.py:45-47 *)
Fixpoint rd_all (rd : bits -> res (addr * bits)) (n : nat) (s : bits) : res (list addr) :=
  match s with
  | [] => Ok []
  | _ => match n with
         | O => Err EFuel
         | S m => let* '(a, r) := rd s in
                  let* l := rd_all rd m r in Ok (a :: l)
         end
  end.

(** geo_address.py:77-81 *)
Definition rd_geo (s : bits) : res (geo * bits) :=
  let* '(north, s) := rd_bool s in
  let* '(latd, s) := rd_uint 15 s in
  let* '(latm, s) := rd_uint 8 s in
  let* '(lats, s) := rd_uint 8 s in
  let* '(east, s) := rd_bool s in
  let* '(lond, s) := rd_uint 15 s in
  let* '(lonm, s) := rd_uint 8 s in
  let* '(lons, s) := rd_uint 8 s in
  let* '(alt, s) := rd_int 32 s in
  Ok (Geo north latd latm lats east lond lonm lons alt, s).

(** [type_class._from_data_bytes(data, prefix_len, rsvd1, flags, rsvd2)] for the registered
    classes; unread data is dropped, rsvd1 and flags are ignored.
    null_address.py:28-33; afi_list_address.py:36-51; instance_address.py:43-58;
    autonomous_system_address.py:38-52; geo_address.py:74-102; nat_traversal_address.py:38-58;
    unknown type: base.py:60-63. *)
Definition lcaf_from_data (rd : bits -> res (addr * bits)) (type : Z) (pl : option Z)
           (rsvd2 : Z) (data : bits) : res addr :=
  if type =? 0 then Ok LNull
  else if type =? 1 then
    let* l := rd_all (fun s => let* '(a, r) := rd s in
                               let* a' := with_prefix a pl in Ok (a', r))
                     (length data) data in
    Ok (LList l)
  else if type =? 2 then
    let* '(iid, s) := rd_uint 32 data in
    let* '(a, s) := rd s in
    let* a' := with_prefix a pl in
    Ok (LInst iid a' rsvd2)
  else if type =? 3 then
    let* '(asn, s) := rd_uint 32 data in
    let* '(a, s) := rd s in
    let* a' := with_prefix a pl in
    Ok (LAs asn a')
  else if type =? 5 then
    let* '(g, s) := rd_geo data in
    let* '(a, s) := rd s in
    let* a' := with_prefix a pl in
    Ok (LGeo g a')
  else if type =? 7 then
    let* '(mp, s) := rd_uint 16 data in
    let* '(ep, s) := rd_uint 16 s in
    let* '(g, s) := rd s in
    let* '(m, s) := rd s in
    let* '(p, s) := rd s in
    let* rtrs := rd_all rd (length s) s in
    Ok (LNat mp ep g m p rtrs)
  else Err EValue.

(** utils/afi.py:18-84 [read_afi_address_from_bitstream] and utils/lcaf/base.py:33-67
    [LCAFAddress.from_bytes]; the nested reads never get a prefix length. *)
Definition afi_body (rd : bits -> res (addr * bits)) (pl : option Z) (s : bits)
  : res (addr * bits) :=
  let* '(afi, s) := rd_uint 16 s in
  if afi =? 0 then
    match pl with
    | Some n => if n =? 0 then Ok (ANone, s) else Err EValue
    | None => Ok (ANone, s)
    end
  else if afi =? 1 then
    let* '(z, s) := rd_uint 32 s in
    let* a := with_prefix (AIP V4 z) pl in Ok (a, s)
  else if afi =? 2 then
    let* '(z, s) := rd_uint 128 s in
    let* a := with_prefix (AIP V6 z) pl in Ok (a, s)
  else if afi =? AFI_LCAF then
    let* '(rsvd1, s) := rd_bits 8 s in
    let* '(flags, s) := rd_bits 8 s in
    let* '(type, s) := rd_uint 8 s in
    let* '(rsvd2, s) := rd_uint 8 s in
    let* '(len, s) := rd_uint 16 s in
    let* '(data, s) := rd_bits (Z.to_nat len * 8) s in
    let* a := lcaf_from_data rd type pl rsvd2 data in
    Ok (a, s)
  else Err EValue.

Fixpoint rd_afi (fuel : nat) (pl : option Z) (s : bits) : res (addr * bits) :=
  match fuel with
  | O => Err EFuel
  | S f => afi_body (rd_afi f None) pl s
  end.

(** The decoder with the fuel that always suffices (proved in AfiProofs.v). *)
Definition read_afi (pl : option Z) (s : bits) : res (addr * bits) :=
  rd_afi (S (length s)) pl s.

(** ** [get_addresses]: null_address.py:25-26, afi_list_address.py:24-32,
    instance_address.py:29-33, autonomous_system_address.py:25-29, geo_address.py:38-42,
    nat_traversal_address.py:31-32.  Defined on LCAF values; for a plain value it is [[x]],
    which is how every caller treats one (e.g. afi_list_address.py:29-30). *)
Fixpoint get_addresses (a : addr) : list addr :=
  match a with
  | LNull => []
  | LList l => flat_map get_addresses l
  | LInst _ a _ => get_addresses a
  | LAs _ a => get_addresses a
  | LGeo _ a => get_addresses a
  | LNat _ _ _ _ _ rtrs => rtrs
  | x => [x]
  end.

(** [x.prefixlen]: networks; LCAF delegate to their address (instance_address.py:39-41,
    autonomous_system_address.py:34-36, geo_address.py:70-72), null_address.py:13. *)
Fixpoint prefixlen (a : addr) : res Z :=
  match a with
  | ANet _ _ n => Ok n
  | LNull => Ok 0
  | LInst _ a _ => prefixlen a
  | LAs _ a => prefixlen a
  | LGeo _ a => prefixlen a
  | _ => Err EAttr
  end.

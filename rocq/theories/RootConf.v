(** * The DDT root file as configuration: etc/lispd/settings_xtr.py:11-15, settings.py:124-147 *)
From Verif Require Import Base Afi Tree Net Ddt.

(** INSTANCES = load_ddt_root(...): the dictionary as fix_config sees it (settings.py:125-145).  int() gives a long from 2 ** 63 on
    (64 bit Python 2), which is no int (settings.py:126) *)
Definition key_of (iid : Z) : ckey := if iid <? 2 ^ 63 then KInt iid else KOther.
Definition as_setting (cfg : instances) : list (ckey * cinst) :=
  map (fun e => (key_of (fst e), CDict (map (fun t => (fst t, CNode (snd t))) (snd e)))) cfg.

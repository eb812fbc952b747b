(** * Registration threads of a daemon that starts: main() of scripts/lispd (Main.v) with the lifecycle of ETR nodes (Daemon.v) *)
From Verif Require Import Base Afi Records Tree MapServer Etr Daemon Main.

(** the registrations, threads and RTRs of every ETR node *)
Definition lives := nat -> lc.
Definition set_life (w : lives) (id : nat) (s : lc) : lives := fun j => if Nat.eqb j id then s else w j.
(** etr_node.py:491-498 of the ETR nodes of a tree, container_node.py:23-27; [b]: control_plane_sockets is not empty *)
Fixpoint sockets_life (b : bool) (n : node) (w : lives) : lives :=
  match n with
  | Node id _ c ch =>
      fold_left (fun w c => sockets_life b c w) ch
        (match c with NETR => set_life w id (lc_step (w id) (LSockets b)) | _ => w end)
  end.
(** scripts/lispd:261-265 *)
Definition all_life (b : bool) (c : instances) (w : lives) : lives :=
  fold_left (fun w m => fold_left (fun w t => sockets_life b (snd t) w) (snd m) w) c w.
(** scripts/lispd:205-265: only when main() reaches the main loop *)
Definition start_life (show_config have_nfqueue : bool) (c : conf) (w : lives) : lives :=
  match start show_config have_nfqueue (Some c) (fun _ => ([], [])) with
  | Exit _ => w
  | Serve ctl _ _ _ => all_life (match ctl with [] => false | _ => true end) (cf_instances c) w
  end.

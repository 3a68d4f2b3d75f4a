(** Specification for C117: what can be seen of a connection. *)
From Verif Require Import GoBase ParamsModel MessagesModel ConfigModel ConnModel ConnInv LooseModel.

(** everything except the heartbeat data, how far the packet goroutines are, and a panic *)
Record shown := mkShown {
  v_mode : cmode; v_cfg : config; v_maxs : N; v_state : st; v_closed : bool; v_sopen : bool; v_ctxd : bool;
  v_inq : list (list byte); v_dq : list pdpayload; v_mon : mpc; v_hb : bpc; v_ini : bool; v_ds : list dpc; v_us : list upc;
  v_dial : dialst; v_log : list event }.
Definition shows (c : conn) : shown :=
  mkShown (mode c) (cfg c) (maxs c) (state c) (closed c) (sopen c) (ctxd c) (inq c) (dq c) (mon c) (hb c) (ini c) (ds c) (us c) (dial c) (log c).

Definition loose_reachable (s : loose) : Prop := exists m g o xs, loose_run (loose_start m g o) xs = Some s.

(** Model of the predefined assemblies of parts ("part modules") and of what the simulation environment
    demands of the calls they consist of.

    Code modelled (all paths under /repo/multisim):
    - parts/part_modules/consumers.py 15-602 [lowex_phwrc], 605-1190 [speicherladesys], 1193-1594 [space_heating]
    - parts/part_modules/suppliers.py 13-936 [chp_with_fghex], 939-1147 [gasboiler]
    - simenv.py 691-773 [add_part] (checks of [store_results], names), 1086-1128 [add_open_port],
      1602-1665 [add_control], 1897-1940 [connect_ports], 4573-4583 (missing controls), 5689-5717 [_check_isadded]
    - controls.py 62-81 (the actuator), 1041-1086 [__check_args] (position of the sensor)
    - parts/pipe_with_valve.py 71-75 ([valve_location]), parts/pipe.py 361-378 ([T_init])

    Simplifications: the calls of a module are data.  The name of a part, an open port or a controller is a fixed
    prefix followed by [segment_name].  Of the arguments only those are kept that refer to other parts, ports or
    cells; dimensions, temperatures and controller settings are left out.  Ports passed in by the caller (the
    connectors) are numbered in the order of their first use. *)
From Coq Require Import List String Ascii Arith ZArith Bool.
From Verif Require Import MPorts MTopo.
Import ListNotations.
Open Scope string_scope.
Open Scope list_scope.

(** Classes of parts used by the modules. *)
Inductive cls : Set :=
| CPipe | CHeated | CChp | CPump | CValve | CHexNum | CHexNtu | CHexCond
| CBranch : list string -> cls | CTes : list string -> cls.

(** Port names: parts/pipe.py 178, parts/pipe_with_valve.py 85, parts/hex_num.py 294 and parts/heatexchanger.py 245
    (inlets first here), parts/hex_condensing_polynome.py 234, parts/tes.py 261 and new ports. *)
Definition ports_of (c : cls) : list string :=
  match c with
  | CPipe | CHeated | CChp | CPump => ["in"; "out"]
  | CValve => ["A"; "B"; "AB"]
  | CHexNum | CHexNtu => ["sup_in"; "sup_out"; "dmd_in"; "dmd_out"]
  | CHexCond => ["water_in"; "water_out"; "fluegas_in"; "fluegas_out"]
  | CBranch l | CTes l => "in" :: l ++ ["out"]
  end.

(** Name prefix, class, [grid_points], indices in [store_results], length of [T_init] if it is an array,
    [valve_location], [heated_cells], whether a controller is required ([control_req] and not [ctrl_defined]). *)
Record part_call := part {
  p_pre : string; p_cls : cls; p_grid : option nat; p_store : list nat; p_init : option nat;
  p_valve : option nat; p_heated : option (nat * nat); p_req : bool }.

(** Place of a sensor: cell of a part of the module (negative: counted from the end) or a part of the caller. *)
Inductive sensor : Set := At : string -> Z -> sensor | Elsewhere : sensor.
Inductive master : Set := NoMaster | MPart : string -> master | MCtrl : string -> master.
Record ctrl_call := control {
  c_pre : string; c_act : string; c_port : option string; c_sens : sensor; c_master : master }.

(** End of a connection: port of a part of the module, open port, port passed in by the caller. *)
Inductive endp : Set := Own : string -> string -> endp | Open : string -> endp | Given : nat -> endp.

Record module := {
  m_parts : list part_call; m_open : list string; m_conns : list (endp * endp); m_ctrls : list ctrl_call }.

(** consumers.py 15-602 [lowex_phwrc].  [Given] ports: ff_connector, rc_connector, rf_connector. *)
Definition lowex : module := {|
  m_parts := [
    part "p3v_phwrc_ff_mix_" (CValve) (Some 8) [0; 1; 5; 6; 7] (Some 8) (Some 6) None true;  (* 126 *)
    part "pb_phwrc_ff_" (CBranch ["out_rc"]) (Some 3) [] None None None false;  (* 150 *)
    part "pwp_phw_ff_" (CPump) (Some 2) [] None None None true;  (* 172 *)
    part "pwp_rc_ff_" (CPump) (Some 2) [] None None None true;  (* 196 *)
    part "hex_phw_" (CHexNum) (Some 20) [] None None None false;  (* 224 *)
    part "hex_rc_" (CHexNtu) None [] None None None false;  (* 250 *)
    part "pb_rc_rf_" (CBranch ["rc_to_mix"]) (Some 20) [0; 1; 4; 5; 6; 18; 19] None None None false;  (* 275 *)
    part "p_rc_to_mix" (CPipe) (Some 6) [0; 1; 3; 5] None None None false;  (* 302 *)
    part "p_phw_rf_" (CPipe) (Some 10) [0; 1; 5; 9] None None None false;  (* 328 *)
    part "p_rc_dmd_" (CPipe) (Some 2) [] None None None false;  (* 356 *)
    part "pb_phwrc_dmd_" (CBranch ["in_rc_flow"]) (Some 6) [0; 1; 2; 3; 5] None None None false;  (* 376 *)
    part "pwp_rc_" (CPump) (Some 2) [] None None None false;  (* 414 *)
    part "pwp_cw_" (CPump) (Some 5) [0; 3; 4] None None None false  (* 448 *)];
  m_open := ["BC_phwrc_theta_ff_"; "BC_rc_theta_rf_"; "BC_phw_theta_cw_"];
  m_conns := [
    (Given 0, Own "p3v_phwrc_ff_mix_" "A");  (* 143 *)
    (Own "p3v_phwrc_ff_mix_" "AB", Own "pb_phwrc_ff_" "in");  (* 164 *)
    (Own "pb_phwrc_ff_" "out", Own "pwp_phw_ff_" "in");  (* 190 *)
    (Own "pb_phwrc_ff_" "out_rc", Own "pwp_rc_ff_" "in");  (* 216 *)
    (Own "pwp_phw_ff_" "out", Own "hex_phw_" "sup_in");  (* 244 *)
    (Own "pwp_rc_ff_" "out", Own "hex_rc_" "sup_in");  (* 266 *)
    (Own "hex_rc_" "sup_out", Own "pb_rc_rf_" "in");  (* 289 *)
    (Own "pb_rc_rf_" "out", Given 1);  (* 295 *)
    (Own "pb_rc_rf_" "rc_to_mix", Own "p_rc_to_mix" "in");  (* 315 *)
    (Own "p_rc_to_mix" "out", Own "p3v_phwrc_ff_mix_" "B");  (* 321 *)
    (Own "hex_phw_" "sup_out", Own "p_phw_rf_" "in");  (* 341 *)
    (Own "p_phw_rf_" "out", Given 2);  (* 347 *)
    (Own "hex_rc_" "dmd_out", Own "p_rc_dmd_" "in");  (* 369 *)
    (Own "hex_phw_" "dmd_out", Own "pb_phwrc_dmd_" "in");  (* 390 *)
    (Own "p_rc_dmd_" "out", Own "pb_phwrc_dmd_" "in_rc_flow");  (* 396 *)
    (Own "pb_phwrc_dmd_" "out", Open "BC_phwrc_theta_ff_");  (* 407 *)
    (Own "pwp_rc_" "out", Own "hex_rc_" "dmd_in");  (* 430 *)
    (Open "BC_rc_theta_rf_", Own "pwp_rc_" "in");  (* 441 *)
    (Open "BC_phw_theta_cw_", Own "pwp_cw_" "in");  (* 469 *)
    (Own "pwp_cw_" "out", Own "hex_phw_" "dmd_in")  (* 475 *)];
  m_ctrls := [
    control "c_3v_mix" "p3v_phwrc_ff_mix_" (Some "A") (At "p3v_phwrc_ff_mix_" 7) NoMaster;  (* 484 *)
    control "c_pump_phw_" "pwp_phw_ff_" None (At "pb_phwrc_dmd_" 1) (MPart "pwp_cw_");  (* 509 *)
    control "c_pump_rc" "pwp_rc_ff_" None (At "p_rc_dmd_" 1) NoMaster  (* 544 *)] |}.

(** consumers.py 605-1190 [speicherladesys] with the default storage ports and 40 cells.  [Given] ports: ff_connector, rf_connector. *)
Definition store_loading : module := {|
  m_parts := [
    part "sps_store_phw_" (CTes ["ff_tes"; "rc"; "cw"]) (Some 40) [] None None None false;  (* 737 *)
    part "sps_p3v_ff_hex_" (CValve) (Some 5) [0; 2; 3; 4] (Some 5) (Some 3) None true;  (* 755 *)
    part "sps_pwp_ff_hex_" (CPump) (Some 2) [1] None None None true;  (* 780 *)
    part "sps_pb_rf_hex_" (CBranch ["out_mix_sps_ff"]) (Some 8) [] None None None false;  (* 805 *)
    part "sps_p_rf_hex_to_mix_" (CPipe) (Some 2) [0] None None None false;  (* 826 *)
    part "sps_hex_phw_store_" (CHexNum) (Some 20) [] None None None false;  (* 853 *)
    part "sps_p_ff_store_" (CPipe) (Some 8) [0; 7] None None None false;  (* 887 *)
    part "sps_pwp_rf_store_" (CPump) (Some 8) [0; 7] None None None true;  (* 912 *)
    part "sps_p_phwrc_dmd_" (CPipe) (Some 6) [0; 1; 5] None None None false;  (* 944 *)
    part "sps_pwp_rc_" (CPump) (Some 2) [] None None None false;  (* 976 *)
    part "sps_pwp_cw_" (CPump) (Some 5) [0; 3; 4] None None None false  (* 1012 *)];
  m_open := ["BC_phwrc_theta_ff_"; "BC_rc_theta_rf_"; "BC_phw_theta_cw_"];
  m_conns := [
    (Given 0, Own "sps_p3v_ff_hex_" "A");  (* 774 *)
    (Own "sps_p3v_ff_hex_" "AB", Own "sps_pwp_ff_hex_" "in");  (* 797 *)
    (Own "sps_pb_rf_hex_" "out", Given 1);  (* 819 *)
    (Own "sps_pb_rf_hex_" "out_mix_sps_ff", Own "sps_p_rf_hex_to_mix_" "in");  (* 839 *)
    (Own "sps_p_rf_hex_to_mix_" "out", Own "sps_p3v_ff_hex_" "B");  (* 845 *)
    (Own "sps_pwp_ff_hex_" "out", Own "sps_hex_phw_store_" "sup_in");  (* 873 *)
    (Own "sps_hex_phw_store_" "sup_out", Own "sps_pb_rf_hex_" "in");  (* 879 *)
    (Own "sps_hex_phw_store_" "dmd_out", Own "sps_p_ff_store_" "in");  (* 900 *)
    (Own "sps_p_ff_store_" "out", Own "sps_store_phw_" "ff_tes");  (* 906 *)
    (Own "sps_store_phw_" "out", Own "sps_pwp_rf_store_" "in");  (* 929 *)
    (Own "sps_pwp_rf_store_" "out", Own "sps_hex_phw_store_" "dmd_in");  (* 935 *)
    (Own "sps_store_phw_" "in", Own "sps_p_phwrc_dmd_" "in");  (* 957 *)
    (Own "sps_p_phwrc_dmd_" "out", Open "BC_phwrc_theta_ff_");  (* 968 *)
    (Own "sps_pwp_rc_" "out", Own "sps_store_phw_" "rc");  (* 993 *)
    (Open "BC_rc_theta_rf_", Own "sps_pwp_rc_" "in");  (* 1004 *)
    (Open "BC_phw_theta_cw_", Own "sps_pwp_cw_" "in");  (* 1033 *)
    (Own "sps_pwp_cw_" "out", Own "sps_store_phw_" "cw")  (* 1039 *)];
  m_ctrls := [
    control "sps_c_3v_hex_ff_" "sps_p3v_ff_hex_" (Some "A") (At "sps_p3v_ff_hex_" 4) NoMaster;  (* 1048 *)
    control "sps_c_pump_hex_" "sps_pwp_ff_hex_" None (At "sps_p_ff_store_" 1) (MPart "sps_pwp_rf_store_");  (* 1073 *)
    control "sps_c_pump_store_" "sps_pwp_rf_store_" None (At "sps_store_phw_" 14) NoMaster  (* 1109 *)] |}.

(** consumers.py 1193-1594 [space_heating], configuration '4w_valve' (the only one implemented).  [Given] ports: tes_rf_connector, tes_ff_connector. *)
Definition heating : module := {|
  m_parts := [
    part "pwp_sh_ff_" (CPump) (Some 2) [] None None None false;  (* 1286 *)
    part "pb_sh_rf_" (CBranch ["rf_to_valve"; "rf_to_gb"]) (Some 10) [0; 3; 5; 9] None None None false;  (* 1317 *)
    part "p3v_sh_tes_gb_" (CValve) (Some 3) [] (Some 3) (Some 1) None true;  (* 1352 *)
    part "p3v_sh_tes_rf_" (CValve) (Some 6) [0; 3; 4; 5] None (Some 4) None true;  (* 1382 *)
    part "p_sh_gasb_ff_" (CPipe) (Some 8) [0; 1; 4; 7] (Some 8) None None false;  (* 1426 *)
    part "ph_sh_gasb_" (CHeated) (Some 6) [] (Some 6) None (Some (1, 5)) true  (* 1449 *)];
  m_open := ["BC_sh_theta_ff_"; "BC_sh_theta_rf_"];
  m_conns := [
    (Own "pwp_sh_ff_" "out", Open "BC_sh_theta_ff_");  (* 1309 *)
    (Open "BC_sh_theta_rf_", Own "pb_sh_rf_" "in");  (* 1336 *)
    (Own "pb_sh_rf_" "out", Given 0);  (* 1342 *)
    (Own "p3v_sh_tes_gb_" "AB", Own "pwp_sh_ff_" "in");  (* 1375 *)
    (Own "p3v_sh_tes_rf_" "AB", Own "p3v_sh_tes_gb_" "B");  (* 1400 *)
    (Given 1, Own "p3v_sh_tes_rf_" "A");  (* 1406 *)
    (Own "p3v_sh_tes_rf_" "B", Own "pb_sh_rf_" "rf_to_valve");  (* 1412 *)
    (Own "p3v_sh_tes_gb_" "A", Own "p_sh_gasb_ff_" "out");  (* 1439 *)
    (Own "p_sh_gasb_ff_" "in", Own "ph_sh_gasb_" "out");  (* 1467 *)
    (Own "ph_sh_gasb_" "in", Own "pb_sh_rf_" "rf_to_gb")  (* 1473 *)];
  m_ctrls := [
    control "c_sh_3v_tesrf_" "p3v_sh_tes_rf_" (Some "A") (At "p3v_sh_tes_rf_" 5) NoMaster;  (* 1481 *)
    control "c_sh_3v_tesgb_" "p3v_sh_tes_gb_" (Some "A") (At "p3v_sh_tes_gb_" 2) NoMaster;  (* 1507 *)
    control "c_sh_gasb_pth_" "ph_sh_gasb_" None (At "ph_sh_gasb_" 4) (MCtrl "c_sh_3v_tesgb_")  (* 1534 *)] |}.

(** suppliers.py 939-1147 [gasboiler] with one return port (the only one implemented).  [Given] ports: ff_connector, ltrf_connector. *)
Definition boiler : module := {|
  m_parts := [
    part "pwp_gasb_ff_" (CPump) (Some 8) [0; 1; 4; 7] (Some 8) None None true;  (* 997 *)
    part "ph_gasb_" (CHeated) (Some 6) [] (Some 6) None (Some (1, 5)) true;  (* 1022 *)
    part "p_gasb_rf_" (CPipe) (Some 8) [0; 1; 4; 6; 7] (Some 8) None None false  (* 1048 *)];
  m_open := [];
  m_conns := [
    (Given 0, Own "pwp_gasb_ff_" "out");  (* 1014 *)
    (Own "pwp_gasb_ff_" "in", Own "ph_gasb_" "out");  (* 1040 *)
    (Own "ph_gasb_" "in", Own "p_gasb_rf_" "out");  (* 1061 *)
    (Own "p_gasb_rf_" "in", Given 1)  (* 1067 *)];
  m_ctrls := [
    control "c_gasb_pth_" "ph_gasb_" None Elsewhere NoMaster;  (* 1082 *)
    control "c_gasb_pump_" "pwp_gasb_ff_" None (At "ph_gasb_" 4) (MPart "ph_gasb_")  (* 1106 *)] |}.

(** suppliers.py 13-936 [chp_with_fghex], 3 return ports, mode 'heat'.  [Given] ports: chp_ff_connection, chp_ntrf_connection, chp_htrfA_connection, chp_htrfB_connection. *)
Definition chp3 : module := {|
  m_parts := [
    part "CHP" (CChp) (Some 6) [] None None (Some (1, 5)) true;  (* 142 *)
    part "pwp_chp_ff_" (CPump) (Some 15) [0; 1; 7; 14] (Some 15) None None true;  (* 186 *)
    part "p3v_chp_rf_" (CValve) (Some 7) [0; 1; 2; 3; 6] (Some 7) (Some 2) None true;  (* 219 *)
    part "p_chp_rf_lt_" (CPipe) (Some 30) [0; 1; 15; 28; 29] None None None false;  (* 244 *)
    part "p3v_chp_rf_htA_" (CValve) (Some 20) [0; 1; 5; 6; 7; 18; 19] (Some 20) (Some 6) None true;  (* 260 *)
    part "p_chp_rf_htB_" (CPipe) (Some 8) [0; 1; 4; 6; 7] None None None false;  (* 291 *)
    part "hex_chp_fg_" (CHexCond) None [] None None None false  (* 311 *)];
  m_open := ["BC_fg_in_"; "BC_fg_out_"];
  m_conns := [
    (Own "CHP" "out", Own "pwp_chp_ff_" "in");  (* 204 *)
    (Own "p3v_chp_rf_" "AB", Own "CHP" "in");  (* 237 *)
    (Own "p3v_chp_rf_htA_" "AB", Own "p3v_chp_rf_" "B");  (* 284 *)
    (Own "p_chp_rf_htB_" "out", Own "p3v_chp_rf_htA_" "B");  (* 304 *)
    (Own "p_chp_rf_lt_" "out", Own "hex_chp_fg_" "water_in");  (* 323 *)
    (Own "hex_chp_fg_" "water_out", Own "p3v_chp_rf_" "A");  (* 329 *)
    (Open "BC_fg_in_", Own "hex_chp_fg_" "fluegas_in");  (* 346 *)
    (Open "BC_fg_out_", Own "hex_chp_fg_" "fluegas_out");  (* 352 *)
    (Own "pwp_chp_ff_" "out", Given 0);  (* 360 *)
    (Own "p_chp_rf_lt_" "in", Given 1);  (* 366 *)
    (Own "p3v_chp_rf_htA_" "A", Given 2);  (* 372 *)
    (Own "p_chp_rf_htB_" "in", Given 3)  (* 378 *)];
  m_ctrls := [
    control "c_chp_pel_" "CHP" None (At "p3v_chp_rf_" (-1)) NoMaster;  (* 658 *)
    control "c_chp_pump_" "pwp_chp_ff_" None (At "CHP" 4) (MPart "CHP");  (* 732 *)
    control "c_chp_3v_hex_fg_" "p3v_chp_rf_" (Some "A") (At "p3v_chp_rf_" 1) NoMaster;  (* 806 *)
    control "c_chp_3v_htrf_" "p3v_chp_rf_htA_" (Some "A") (At "p3v_chp_rf_htA_" 7) NoMaster  (* 870 *)] |}.

(** suppliers.py 13-936 [chp_with_fghex], 2 return ports, mode 'heat'.  [Given] ports: chp_ff_connection, chp_ntrf_connection, chp_htrfA_connection. *)
Definition chp2 : module := {|
  m_parts := [
    part "CHP" (CChp) (Some 6) [] None None (Some (1, 5)) true;  (* 142 *)
    part "pwp_chp_ff_" (CPump) (Some 15) [0; 1; 7; 14] (Some 15) None None true;  (* 186 *)
    part "p3v_chp_rf_" (CValve) (Some 7) [0; 1; 2; 3; 6] (Some 7) (Some 2) None true;  (* 387 *)
    part "p_chp_rf_lt_" (CPipe) (Some 30) [0; 1; 15; 28; 29] None None None false;  (* 412 *)
    part "p_chp_rf_ht_" (CPipe) (Some 30) [0; 1; 15; 28; 29] (Some 30) None None false;  (* 427 *)
    part "hex_chp_fg_" (CHexCond) None [] None None None false  (* 448 *)];
  m_open := ["BC_fg_in_"; "BC_fg_out_"];
  m_conns := [
    (Own "CHP" "out", Own "pwp_chp_ff_" "in");  (* 204 *)
    (Own "p3v_chp_rf_" "AB", Own "CHP" "in");  (* 405 *)
    (Own "p_chp_rf_ht_" "out", Own "p3v_chp_rf_" "B");  (* 441 *)
    (Own "p_chp_rf_lt_" "out", Own "hex_chp_fg_" "water_in");  (* 460 *)
    (Own "hex_chp_fg_" "water_out", Own "p3v_chp_rf_" "A");  (* 466 *)
    (Open "BC_fg_in_", Own "hex_chp_fg_" "fluegas_in");  (* 483 *)
    (Open "BC_fg_out_", Own "hex_chp_fg_" "fluegas_out");  (* 489 *)
    (Own "pwp_chp_ff_" "out", Given 0);  (* 497 *)
    (Own "p_chp_rf_lt_" "in", Given 1);  (* 503 *)
    (Own "p_chp_rf_ht_" "in", Given 2)  (* 509 *)];
  m_ctrls := [
    control "c_chp_pel_" "CHP" None (At "p3v_chp_rf_" (-1)) NoMaster;  (* 658 *)
    control "c_chp_pump_" "pwp_chp_ff_" None (At "CHP" 4) (MPart "CHP");  (* 732 *)
    control "c_chp_3v_hex_fg_" "p3v_chp_rf_" (Some "A") (At "p3v_chp_rf_" 1) NoMaster  (* 806 *)] |}.

(** suppliers.py 13-936 [chp_with_fghex], 1 return ports, mode 'heat'.  [Given] ports: chp_ff_connection, chp_ntrf_connection. *)
Definition chp1 : module := {|
  m_parts := [
    part "CHP" (CChp) (Some 6) [] None None (Some (1, 5)) true;  (* 142 *)
    part "pwp_chp_ff_" (CPump) (Some 15) [0; 1; 7; 14] (Some 15) None None true;  (* 186 *)
    part "p_chp_rf_" (CPipe) (Some 6) [0; 1; 4; 5] (Some 6) None None false;  (* 517 *)
    part "p_chp_rf_lt_" (CPipe) (Some 21) [0; 1; 10; 19; 20] None None None false;  (* 537 *)
    part "hex_chp_fg_" (CHexCond) None [] None None None false  (* 551 *)];
  m_open := ["BC_fg_in_"; "BC_fg_out_"];
  m_conns := [
    (Own "CHP" "out", Own "pwp_chp_ff_" "in");  (* 204 *)
    (Own "p_chp_rf_" "out", Own "CHP" "in");  (* 530 *)
    (Own "p_chp_rf_lt_" "out", Own "hex_chp_fg_" "water_in");  (* 563 *)
    (Own "hex_chp_fg_" "water_out", Own "p_chp_rf_" "in");  (* 569 *)
    (Open "BC_fg_in_", Own "hex_chp_fg_" "fluegas_in");  (* 586 *)
    (Open "BC_fg_out_", Own "hex_chp_fg_" "fluegas_out");  (* 592 *)
    (Own "pwp_chp_ff_" "out", Given 0);  (* 600 *)
    (Own "p_chp_rf_lt_" "in", Given 1)  (* 606 *)];
  m_ctrls := [
    control "c_chp_pel_" "CHP" None (At "p_chp_rf_" (-1)) NoMaster;  (* 658 *)
    control "c_chp_pump_" "pwp_chp_ff_" None (At "CHP" 4) (MPart "CHP")  (* 732 *)] |}.

(** suppliers.py 13-936 [chp_with_fghex], 0.5 return ports, mode 'heat'.  [Given] ports: chp_ff_connection, chp_ntrf_connection. *)
Definition chp0 : module := {|
  m_parts := [
    part "CHP" (CChp) (Some 6) [] None None (Some (1, 5)) true;  (* 167 *)
    part "pwp_chp_ff_" (CPump) (Some 15) [0; 1; 7; 14] (Some 15) None None true;  (* 186 *)
    part "p_chp_rf_" (CPipe) (Some 27) [0; 1; 13; 25; 26] (Some 27) None None false  (* 615 *)];
  m_open := [];
  m_conns := [
    (Own "CHP" "out", Own "pwp_chp_ff_" "in");  (* 204 *)
    (Own "p_chp_rf_" "out", Own "CHP" "in");  (* 628 *)
    (Own "pwp_chp_ff_" "out", Given 0);  (* 635 *)
    (Own "p_chp_rf_" "in", Given 1)  (* 641 *)];
  m_ctrls := [
    control "c_chp_pel_" "CHP" None (At "p_chp_rf_" (-1)) NoMaster;  (* 658 *)
    control "c_chp_pump_" "pwp_chp_ff_" None (At "CHP" 4) (MPart "CHP")  (* 732 *)] |}.


(** The other modes of the CHP module (suppliers.py 652-728): 'el' is accepted (64) but adds no controller for the
    plant, 'el_mod' adds one with another name. *)
Inductive chp_mode : Set := Heat | El | ElMod.
Definition in_mode (md : chp_mode) (m : module) : module := {|
  m_parts := m_parts m; m_open := m_open m; m_conns := m_conns m;
  m_ctrls := match md, m_ctrls m with
             | Heat, l => l
             | El, _ :: l => l
             | ElMod, c :: l => control "chp_modelpred_" (c_act c) (c_port c) (c_sens c) (c_master c) :: l
             | _, [] => [] end |}.

(** All modules in the modes that work. *)
Definition library : list module :=
  [lowex; store_loading; heating; boiler; chp3; chp2; chp1; chp0;
   in_mode ElMod chp3; in_mode ElMod chp2; in_mode ElMod chp1; in_mode ElMod chp0].

(** * Calling a module *)
Definition part_names (m : module) (seg : string) : list string :=
  map (fun p => (p_pre p ++ seg)%string) (m_parts m).
Definition open_names (m : module) (seg : string) : list string :=
  map (fun b => (b ++ seg)%string) (m_open m).
Definition ctrl_names (m : module) (seg : string) : list string :=
  map (fun c => (c_pre c ++ seg)%string) (m_ctrls m).
(** Ports that come into being. *)
Definition own_ports (m : module) (seg : string) : list pkey :=
  flat_map (fun p => map (Port (p_pre p ++ seg)) (ports_of (p_cls p))) (m_parts m) ++ map BC (open_names m seg).
(** Connections asked for; [ext] are the connectors given by the caller. *)
Definition end_of (seg : string) (ext : list pkey) (e : endp) : pkey :=
  match e with
  | Own pre q => Port (pre ++ seg) q
  | Open b => BC (b ++ seg)
  | Given k => nth k ext (BC "")
  end.
Definition conns (m : module) (seg : string) (ext : list pkey) : list (pkey * pkey) :=
  map (fun c => (end_of seg ext (fst c), end_of seg ext (snd c))) (m_conns m).
(** Number of connectors. *)
Definition given (e : endp) : list nat := match e with Given k => [k] | _ => [] end.
Definition arity (m : module) : nat :=
  List.length (flat_map (fun c => given (fst c) ++ given (snd c)) (m_conns m)).

(** A module put into a plant. *)
Record placed := { pl_m : module; pl_seg : string; pl_ext : list pkey }.
(** [_check_isadded]: names of parts, open ports and controllers must be new, each among its own kind. *)
Definition fresh (l : list string) : Prop := NoDup l.
Definition accepted_names (pls : list placed) : Prop :=
  fresh (flat_map (fun p => part_names (pl_m p) (pl_seg p)) pls) /\
  fresh (flat_map (fun p => open_names (pl_m p) (pl_seg p)) pls) /\
  fresh (flat_map (fun p => ctrl_names (pl_m p) (pl_seg p)) pls).
Definition plant_ports (base : list pkey) (pls : list placed) : list pkey :=
  base ++ flat_map (fun p => own_ports (pl_m p) (pl_seg p)) pls.
Definition plant_conns (bconns : list (pkey * pkey)) (pls : list placed) : list (pkey * pkey) :=
  bconns ++ flat_map (fun p => conns (pl_m p) (pl_seg p) (pl_ext p)) pls.

(** * Checks of the arguments *)
Definition below (n : nat) (l : list nat) : bool := forallb (fun i => (i <? n)%nat) l.
Definition opt_ok {A : Type} (f : A -> bool) (o : option A) : bool := match o with Some x => f x | None => true end.
(** Cells of a part; parts without [grid_points] count as one cell for [store_results] (simenv.py 719-722), which is
    then only switched on or off. *)
Definition part_accepted (p : part_call) : bool :=
  match p_grid p with
  | Some n => (below n (p_store p) && opt_ok (fun k => (k =? n)%nat) (p_init p) && opt_ok (fun v => (v <? n)%nat) (p_valve p)
               && opt_ok (fun h => (fst h <? snd h)%nat && (snd h <=? n)%nat) (p_heated p))%bool
  | None => true
  end.

Definition find_part (m : module) (pre : string) : option part_call :=
  find (fun p => String.eqb (p_pre p) pre) (m_parts m).
(** controls.py 1063-1086: cell a sensor is placed at. *)
Definition sensor_cell (n : nat) (i : Z) : option nat :=
  if ((0 <=? i) && (i <? Z.of_nat n))%Z%bool then Some (Z.to_nat i)
  else if ((- Z.of_nat n <=? i) && (i <? 0))%Z%bool then Some (Z.to_nat (Z.of_nat n + i))
  else None.
Definition sensor_accepted (m : module) (s : sensor) : bool :=
  match s with
  | Elsewhere => true
  | At pre i => match find_part m pre with
                | Some p => match p_grid p with
                            | Some n => match sensor_cell n i with Some _ => true | None => false end
                            | None => false end
                | None => false end
  end.
(** controls.py 62-81: the actuator exists, can be one, and is free; the master exists already. *)
Definition is_actuator (p : part_call) : bool :=
  match p_cls p with CPump | CValve | CHeated | CChp => true | _ => false end.
Fixpoint controls_accepted (m : module) (done : list ctrl_call) (l : list ctrl_call) : bool :=
  match l with
  | [] => true
  | c :: l =>
      (match find_part m (c_act c) with
       | Some p => is_actuator p && p_req p && negb (existsb (fun d => String.eqb (c_act d) (c_act c)) done)
                   && opt_ok (fun q => existsb (String.eqb q) (ports_of (p_cls p))) (c_port c)
       | None => false end
       && sensor_accepted m (c_sens c)
       && match c_master c with
          | NoMaster => true
          | MPart pre => match find_part m pre with Some _ => true | None => false end
          | MCtrl pre => existsb (fun d => String.eqb (c_pre d) pre) done end
       && controls_accepted m (done ++ [c]) l)%bool
  end.
(** simenv.py 4573-4583: parts left without a controller. *)
Definition uncontrolled (m : module) : list string :=
  map p_pre (filter (fun p => (p_req p && negb (existsb (fun c => String.eqb (c_act c) (p_pre p)) (m_ctrls m)))%bool)
                    (m_parts m)).

(** * The module as a flow network *)

(** Part 0 is a storage with one port per connector, part [i + 1] the [i]-th part of the module; open ports are
    left without a partner.  Heat exchangers for flue gas are driven by the plant (chp_plant.py 526-532). *)
Definition kind_of_cls (c : cls) : kind :=
  match c with
  | CPipe | CHeated | CChp => KPipe
  | CPump => KPump
  | CValve => KPValve
  | CHexNum => KHex false
  | CHexNtu | CHexCond => KHex true
  | CBranch l => KHub false (2 + List.length l)
  | CTes l => KHub true (2 + List.length l)
  end.
Fixpoint position {A : Type} (f : A -> bool) (l : list A) : nat :=
  match l with [] => 0 | x :: l => if f x then 0 else S (position f l) end.
Definition port_of (m : module) (e : endp) : list port :=
  match e with
  | Given k => [(0, k)]
  | Open _ => []
  | Own pre q =>
      match find_part m pre with
      | Some p => [(S (position (fun p => String.eqb (p_pre p) pre) (m_parts m)),
                    position (String.eqb q) (ports_of (p_cls p)))]
      | None => [] end
  end.
Definition kinds (m : module) : list kind := KHub true (arity m) :: map (fun p => kind_of_cls (p_cls p)) (m_parts m).
Definition pairs (m : module) : list (port * port) :=
  flat_map (fun c => list_prod (port_of m (fst c)) (port_of m (snd c))) (m_conns m).
Definition driven (m : module) : list nat :=
  map fst (filter (fun p => match p_cls (snd p) with CHexCond => true | _ => false end)
                  (combine (seq 1 (List.length (m_parts m))) (m_parts m))).

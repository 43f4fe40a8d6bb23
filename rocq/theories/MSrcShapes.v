(** * The methods of the parts that calculate one step, as programs over shapes. Generated by
    /verif/tools/extract_shapes.py from the text of /repo/multisim; do not edit. *)
From Coq Require Import ZArith List String.
From Verif Require Import MShapes.
Import ListNotations.
Local Open Scope Z_scope.
Local Open Scope positive_scope.
Local Open Scope string_scope.

(** multisim/parts/pipe.py 642: Pipe.get_diff *)
Definition m_Pipe : method := mkM "Pipe" "get_diff"
  [("timestep", 1); ("_T_ext", 2); ("_T_port", 3); ("_T_s", 4); ("_T_amb", 5); ("ports_all", 6); ("_dm_io", 7); ("_dm_top", 8); ("_dm_bot", 9); ("_dm_port", 10); ("res_dm", 11); ("_cp_T", 12); ("_lam_T", 13); ("_rho_T", 14); ("_ny_T", 15); ("_lam_mean", 16); ("_cp_port", 17); ("_lam_port_fld", 18); ("_mcp", 19); ("_rhocp", 20); ("_lam_wll", 21); ("_lam_ins", 22); ("_mcp_wll", 23); ("_ui", 24); ("_alpha_i", 25); ("_alpha_inf", 26); ("_UA_tb", 27); ("_UA_tb_wll", 28); ("_UA_amb_shell", 29); ("_UA_port", 30); ("_UA_port_wll", 31); ("_port_own_idx", 32); ("_port_link_idx", 33); ("grid_spacing", 34); ("_port_gsp", 35); ("_port_subs_gsp", 36); ("_d_i", 37); ("_cell_dist", 38); ("_flow_length", 39); ("_r_total", 40); ("_r_ln_wll", 41); ("_r_ln_ins", 42); ("_r_rins", 43); ("A_cell", 44); ("V_cell", 45); ("_A_shell_i", 46); ("_A_shell_ins", 47); ("_A_p_fld_mean", 48); ("_process_flows", 49); ("_vertical", 50); ("_step_stable", 51); ("part_id", 53); ("_stability_breaches", 54); ("_vN_max_step", 55); ("_max_factor", 57); ("stepnum", 59); ("dT_cond", 60); ("dT_adv", 61); ("dT_total", 62)]
(block [
Let 52 (XVar 51);
Let 56 (XVar 55);
Let 58 (XVar 57);
block [
block [
If (XSel (XVar 49) [At (IC 0)])
(block [
If (XBin (XSel (XVar 7) [At (IC 0)]) (XNum))
(block [
Store 8 [Sl (BIx (IC 1)) (BNone) (SOne)] (XSel (XVar 7) [At (IC 0)]);
Store 9 [Sl (BNone) (BEnd 1) (SOne)] (XNum)])
(block [
Store 9 [Sl (BNone) (BEnd 1) (SOne)] (XSel (XVar 7) [At (IC 0)]);
Store 8 [Sl (BIx (IC 1)) (BNone) (SOne)] (XNum)]);
If (XBin (XSel (XVar 7) [At (IC 0)]) (XNum))
(block [
Store 10 [At (IC 0)] (XSel (XVar 7) [At (IC 0)]);
Store 10 [End 1] (XNum)])
(block [
Store 10 [End 1] (XSel (XVar 7) [At (IC 0)]);
Store 10 [At (IC 0)] (XNum)]);
Store 11 [At (IElem 59 (IC 0))] (XSel (XVar 7) [At (IC 0)])])
(Skip);
Let 63 (XNum)];
Store 49 [At (IC 0)] (XVar 63);
block [
block [
Store 12 [Sl (BNone) (BNone) (SOne)] (XBin (XBin (XBin (XBin (XNum) (XBin (XNum) (XVar 2))) (XBin (XNum) (XBin (XVar 2) (XNum)))) (XBin (XNum) (XBin (XVar 2) (XNum)))) (XBin (XNum) (XBin (XVar 2) (XNum))))];
Let 64 (XSel (XVar 2) [Sl (BIx (IC 1)) (BEnd 1) (SOne)]);
block [
Store 13 [Sl (BNone) (BNone) (SOne)] (XBin (XBin (XBin (XNum) (XBin (XNum) (XVar 64))) (XBin (XNum) (XBin (XVar 64) (XNum)))) (XBin (XNum) (XBin (XVar 64) (XNum))))];
Let 65 (XSel (XVar 2) [Sl (BIx (IC 1)) (BEnd 1) (SOne)]);
block [
Store 14 [Sl (BNone) (BNone) (SOne)] (XBin (XBin (XBin (XBin (XNum) (XBin (XNum) (XVar 65))) (XBin (XNum) (XBin (XVar 65) (XNum)))) (XBin (XNum) (XBin (XVar 65) (XNum)))) (XBin (XNum) (XBin (XVar 65) (XNum))))];
Let 66 (XSel (XVar 2) [Sl (BIx (IC 1)) (BEnd 1) (SOne)]);
block [
Store 15 [Sl (BNone) (BNone) (SOne)] (XBin (XBin (XBin (XBin (XNum) (XBin (XNum) (XVar 66))) (XBin (XNum) (XBin (XVar 66) (XNum)))) (XBin (XNum) (XBin (XVar 66) (XNum)))) (XBin (XNum) (XBin (XVar 66) (XNum))))]];
block [
Store 16 [Sl (BNone) (BNone) (SOne)] (XBin (XBin (XBin (XNum) (XSel (XVar 13) [Sl (BNone) (BEnd 1) (SOne)])) (XSel (XVar 13) [Sl (BIx (IC 1)) (BNone) (SOne)])) (XBin (XSel (XVar 13) [Sl (BNone) (BEnd 1) (SOne)]) (XSel (XVar 13) [Sl (BIx (IC 1)) (BNone) (SOne)])))];
block [
Store 27 [Sl (BIx (IC 1)) (BEnd 1) (SOne)] (XBin (XBin (XBin (XVar 44) (XVar 34)) (XVar 16)) (XVar 28))];
Let 67 (XSel (XVar 2) [Sl (BIx (IC 1)) (BEnd 1) (SOne)]);
Let 68 (XSel (XVar 5) [At (IC 0)]);
block [
Store 4 [Sl (BNone) (BNone) (SOne)] (XBin (XVar 68) (XBin (XBin (XBin (XVar 67) (XVar 68)) (XVar 29)) (XBin (XVar 26) (XVar 47))))];
Let 69 (XSel (XVar 2) [Sl (BIx (IC 1)) (BEnd 1) (SOne)]);
block [
Let 70 (XLike (XVar 14));
Let 71 (XLike (XVar 69));
Let 72 (XLike (XVar 14));
Let 73 (XBin (XVar 7) (XBin (XVar 14) (XVar 44)));
block [
Store 70 [Sl (BNone) (BNone) (SOne)] (XBin (XBin (XVar 73) (XVar 37)) (XVar 15))];
block [
Store 71 [Sl (BNone) (BNone) (SOne)] (XBin (XBin (XBin (XNum) (XBin (XNum) (XVar 69))) (XBin (XNum) (XBin (XVar 69) (XNum)))) (XBin (XNum) (XBin (XVar 69) (XNum))))];
Let 74 (XBin (XVar 70) (XVar 71));
If (XBin (XSel (XVar 7) [At (IC 0)]) (XNum))
(block [
Let 75 (XSel (XVar 38) [Sl (BNone) (BNone) (SRev)])])
(block [
Let 75 (XSel (XVar 38) [Sl (BNone) (BNone) (SOne)])]);
MkMask 76 (XBin (XVar 70) (XNum));
StoreMask 72 76 false (XBin (XBin (XNum) (XBin (XBin (XBin (XNum) (XBin (XBin (XBin (XMask (XVar 74) 76 false) (XVar 37)) (XMask (XVar 75) 76 false)) (XBin (XNum) (XNum)))) (XNum)) (XNum))) (XBin (XNum) (XNum)));
Let 77 (XBin (XBin (XBin (XNum) (XMask (XVar 70) 76 true)) (XNum)) (XInt (IC (-2))));
StoreMask 72 76 true (XBin (XBin (XBin (XBin (XVar 77) (XNum)) (XMask (XVar 74) 76 true)) (XBin (XNum) (XBin (XBin (XNum) (XBin (XBin (XMask (XVar 71) 76 true) (XBin (XNum) (XNum))) (XNum))) (XBin (XBin (XVar 77) (XNum)) (XNum))))) (XBin (XNum) (XBin (XBin (XBin (XVar 37) (XMask (XVar 75) 76 true)) (XBin (XNum) (XNum))) (XNum))));
Store 25 [Sl (BNone) (BNone) (SOne)] (XBin (XBin (XVar 72) (XVar 13)) (XVar 37))];
Let 78 (XSel (XVar 5) [At (IC 0)]);
block [
Let 79 (XNum);
Let 80 (XNum);
Let 81 (XBin (XBin (XVar 78) (XVar 4)) (XNum));
Let 82 (XLike (XVar 81));
Let 83 (XLike (XVar 81));
block [
Store 82 [Sl (BNone) (BNone) (SOne)] (XBin (XBin (XNum) (XBin (XNum) (XVar 81))) (XBin (XNum) (XBin (XVar 81) (XNum))))];
block [
Store 83 [Sl (BNone) (BNone) (SOne)] (XBin (XBin (XNum) (XBin (XNum) (XVar 81))) (XBin (XNum) (XBin (XVar 81) (XNum))))];
Let 84 (XBin (XBin (XBin (XBin (XBin (XVar 4) (XVar 78)) (XNum)) (XBin (XVar 39) (XNum))) (XVar 80)) (XBin (XBin (XVar 78) (XVar 79)) (XBin (XVar 82) (XNum))));
If (XVar 50)
(block [
Let 85 (XNum);
Let 86 (XBin (XBin (XBin (XNum) (XBin (XNum) (XBin (XBin (XVar 84) (XVar 85)) (XBin (XNum) (XNum))))) (XNum)) (XBin (XBin (XNum) (XVar 39)) (XBin (XNum) (XVar 40))))])
(block [
Let 85 (XNum);
Let 86 (XBin (XBin (XNum) (XBin (XNum) (XBin (XBin (XVar 84) (XVar 85)) (XBin (XNum) (XNum))))) (XNum))]);
Store 26 [Sl (BNone) (BNone) (SOne)] (XBin (XBin (XVar 86) (XVar 83)) (XVar 39))];
block [
Store 29 [Sl (BNone) (BNone) (SOne)] (XBin (XVar 46) (XBin (XBin (XBin (XBin (XNum) (XVar 25)) (XBin (XVar 41) (XVar 21))) (XBin (XVar 42) (XVar 22))) (XBin (XVar 43) (XVar 26))))];
block [
Store 20 [Sl (BNone) (BNone) (SOne)] (XBin (XVar 14) (XSel (XVar 12) [Sl (BIx (IC 1)) (BEnd 1) (SOne)]));
Store 19 [Sl (BNone) (BNone) (SOne)] (XBin (XBin (XVar 45) (XVar 20)) (XVar 23));
Store 24 [Sl (BNone) (BNone) (SOne)] (XBin (XSel (XVar 12) [Sl (BIx (IC 1)) (BEnd 1) (SOne)]) (XSel (XVar 2) [Sl (BIx (IC 1)) (BEnd 1) (SOne)]))];
Let 87 (XSel (XVar 2) [Sl (BIx (IC 1)) (BEnd 1) (SOne)]);
block [
Let 88 (XLike (XVar 32));
For 89 (ISize 33)
(block [
Let 90 (XSel (XVar 6) [At (IElem 33 (IV 89))]);
LetInt 91 (IElem 32 (IV 89));
StoreFlat 3 (IV 89) (XVar 90);
block [
Let 92 (XBin (XBin (XBin (XBin (XNum) (XBin (XNum) (XVar 90))) (XBin (XNum) (XBin (XVar 90) (XNum)))) (XBin (XNum) (XBin (XVar 90) (XNum)))) (XBin (XNum) (XBin (XVar 90) (XNum))))];
StoreFlat 17 (IV 89) (XVar 92);
block [
Let 93 (XBin (XBin (XBin (XNum) (XBin (XNum) (XVar 90))) (XBin (XNum) (XBin (XVar 90) (XNum)))) (XBin (XNum) (XBin (XVar 90) (XNum))))];
StoreFlat 18 (IV 89) (XVar 93);
StoreFlat 30 (IV 89) (XBin (XBin (XSel (XVar 48) [At (IV 89)]) (XBin (XBin (XSel (XVar 35) [At (IV 89)]) (XBin (XNum) (XSel (XVar 18) [At (IV 89)]))) (XBin (XVar 34) (XBin (XNum) (XFlat (XVar 13) (IV 91)))))) (XSel (XVar 31) [At (IV 89)]));
StoreFlat 88 (IV 89) (XBin (XBin (XFlat (XVar 30) (IV 89)) (XBin (XVar 90) (XFlat (XVar 87) (IV 91)))) (XFlat (XVar 19) (IV 91)))]);
Let 94 (XVar 88)];
Let 95 (XVar 94);
Let 96 (XVar 54);
block [
Let 97 (XNew [IC 3]);
Store 97 [At (IC 0)] (XBin (XBin (XRed true (XBin (XSel (XVar 27) [Sl (BIx (IC 1)) (BEnd 1) (SOne)]) (XSel (XVar 20) [Sl (BIx (IC 1)) (BNone) (SOne)]))) (XVar 1)) (XBin (XVar 44) (XVar 34)));
Store 97 [At (IC 1)] (XBin (XBin (XRed true (XBin (XVar 30) (XBin (XVar 48) (XVar 36)))) (XVar 1)) (XRed true (XVar 20)));
Store 97 [At (IC 2)] (XBin (XBin (XRed true (XBin (XVar 29) (XVar 20))) (XVar 1)) (XBin (XVar 47) (XVar 40)));
Let 98 (XRed true (XVar 97));
Let 99 (XBin (XVar 45) (XRed true (XVar 14)));
Let 100 (XBin (XBin (XRed true (XVar 7)) (XVar 1)) (XVar 99));
Let 101 (XBin (XVar 98) (XNum));
Let 102 (XBin (XVar 100) (XNum));
Let 103 (XBin (XVar 101) (XVar 102));
If (XBin (XVar 103) (XNum))
(block [
If (XNum)
(block [
Store 52 [At (IC 0)] (XNum);
Store 96 [] (XNum);
Let 104 (XBin (XBin (XVar 1) (XVar 103)) (XNum));
If (XBin (XSel (XVar 56) [At (IC 0)]) (XVar 104))
(block [
Store 56 [At (IC 0)] (XVar 104)])
(Skip);
If (XBin (XSel (XVar 58) [At (IC 0)]) (XNum))
(block [
Store 58 [At (IC 0)] (XBin (XSel (XVar 58) [At (IC 0)]) (XNum));
If (XBin (XSel (XVar 58) [At (IC 0)]) (XNum))
(block [
Store 58 [At (IC 0)] (XNum)])
(Skip)])
(Skip)])
(block [
Raise])])
(Skip);
Let 105 (XVar 52);
Let 106 (XVar 56);
Let 107 (XVar 58)];
Let 52 (XVar 105);
Let 56 (XVar 106);
Let 58 (XVar 107);
Store 60 [Sl (BNone) (BNone) (SOne)] (XBin (XBin (XBin (XBin (XSel (XVar 27) [Sl (BNone) (BEnd 1) (SOne)]) (XBin (XSel (XVar 2) [Sl (BNone) (BEnd 2) (SOne)]) (XSel (XVar 2) [Sl (BIx (IC 1)) (BEnd 1) (SOne)]))) (XBin (XSel (XVar 27) [Sl (BIx (IC 1)) (BNone) (SOne)]) (XBin (XSel (XVar 2) [Sl (BIx (IC 2)) (BNone) (SOne)]) (XSel (XVar 2) [Sl (BIx (IC 1)) (BEnd 1) (SOne)])))) (XBin (XVar 29) (XBin (XSel (XVar 5) [At (IC 0)]) (XSel (XVar 2) [Sl (BIx (IC 1)) (BEnd 1) (SOne)])))) (XVar 19));
Store 61 [Sl (BNone) (BNone) (SOne)] (XBin (XBin (XBin (XVar 8) (XBin (XBin (XSel (XVar 12) [Sl (BNone) (BEnd 2) (SOne)]) (XSel (XVar 2) [Sl (BNone) (BEnd 2) (SOne)])) (XVar 24))) (XBin (XVar 9) (XBin (XBin (XSel (XVar 12) [Sl (BIx (IC 2)) (BNone) (SOne)]) (XSel (XVar 2) [Sl (BIx (IC 2)) (BNone) (SOne)])) (XVar 24)))) (XVar 19));
For 108 (ISize 32)
(block [
LetInt 109 (IElem 32 (IV 108));
Store 60 [At (IV 109)] (XSel (XVar 95) [At (IV 108)]);
Store 61 [At (IV 109)] (XBin (XBin (XSel (XVar 10) [At (IV 108)]) (XBin (XBin (XSel (XVar 17) [At (IV 108)]) (XSel (XVar 3) [At (IV 108)])) (XSel (XVar 24) [At (IV 109)]))) (XSel (XVar 19) [At (IV 109)]))]);
Store 62 [Sl (BNone) (BNone) (SOne)] (XBin (XVar 60) (XVar 61));
Let 110 (XVar 62)];
Let 111 (XVar 62)]).
(** multisim/parts/pipe_branched.py 290: PipeBranched.get_diff *)
Definition m_PipeBranched : method := mkM "PipeBranched" "get_diff"
  [("timestep", 1); ("_T_ext", 2); ("_T_port", 3); ("_T_s", 4); ("_T_amb", 5); ("ports_all", 6); ("_dm_io", 7); ("dm", 8); ("_dm_top", 9); ("_dm_bot", 10); ("_dm_port", 11); ("res_dm", 12); ("_cp_T", 13); ("_lam_T", 14); ("_rho_T", 15); ("_ny_T", 16); ("_lam_mean", 17); ("_cp_port", 18); ("_lam_port_fld", 19); ("_mcp", 20); ("_rhocp", 21); ("_lam_wll", 22); ("_lam_ins", 23); ("_mcp_wll", 24); ("_ui", 25); ("_alpha_i", 26); ("_alpha_inf", 27); ("_UA_tb", 28); ("_UA_tb_wll", 29); ("_UA_amb_shell", 30); ("_UA_port", 31); ("_UA_port_wll", 32); ("_port_own_idx", 33); ("_port_link_idx", 34); ("grid_spacing", 35); ("_port_gsp", 36); ("_port_subs_gsp", 37); ("_d_i", 38); ("_cell_dist", 39); ("_flow_length", 40); ("_r_total", 41); ("_r_ln_wll", 42); ("_r_ln_ins", 43); ("_r_rins", 44); ("A_cell", 45); ("V_cell", 46); ("_A_shell_i", 47); ("_A_shell_ins", 48); ("_A_p_fld_mean", 49); ("_process_flows", 50); ("_vertical", 51); ("_step_stable", 52); ("part_id", 54); ("_stability_breaches", 55); ("_vN_max_step", 56); ("_max_factor", 58); ("stepnum", 60); ("dT_cond", 61); ("dT_adv", 62); ("dT_total", 63)]
(block [
Let 53 (XVar 52);
Let 57 (XVar 56);
Let 59 (XVar 58);
block [
block [
If (XSel (XVar 50) [At (IC 0)])
(block [
Store 8 [Sl (BNone) (BNone) (SOne)] (XNum);
Let 64 (XCum (XVar 7));
For 65 (ISub (ISize 33) (IC 1))
(block [
Store 8 [Sl (BIx (IElem 33 (IV 65))) (BIx (IElem 33 (IAdd (IV 65) (IC 1)))) (SOne)] (XSel (XVar 64) [At (IV 65)])]);
Store 11 [Sl (BNone) (BNone) (SOne)] (XVar 7);
Store 9 [Sl (BIx (IC 1)) (BNone) (SOne)] (XSel (XVar 8) [Sl (BNone) (BEnd 1) (SOne)]);
Store 10 [Sl (BNone) (BEnd 1) (SOne)] (XSel (XVar 8) [Sl (BNone) (BEnd 1) (SOne)]);
MkMask 66 (XBin (XVar 9) (XNum));
StoreMask 9 66 true (XNum);
MkMask 67 (XBin (XVar 10) (XNum));
StoreMask 10 67 true (XNum);
Let 68 (XRavel (XVar 11));
MkMask 69 (XBin (XVar 68) (XNum));
StoreMask 68 69 true (XNum);
Store 8 [End 1] (XSel (XVar 8) [End 2]);
Store 12 [At (IElem 60 (IC 0))] (XVar 8)])
(Skip);
Let 70 (XNum)];
Store 50 [At (IC 0)] (XVar 70);
block [
block [
Store 13 [Sl (BNone) (BNone) (SOne)] (XBin (XBin (XBin (XBin (XNum) (XBin (XNum) (XVar 2))) (XBin (XNum) (XBin (XVar 2) (XNum)))) (XBin (XNum) (XBin (XVar 2) (XNum)))) (XBin (XNum) (XBin (XVar 2) (XNum))))];
Let 71 (XSel (XVar 2) [Sl (BIx (IC 1)) (BEnd 1) (SOne)]);
block [
Store 14 [Sl (BNone) (BNone) (SOne)] (XBin (XBin (XBin (XNum) (XBin (XNum) (XVar 71))) (XBin (XNum) (XBin (XVar 71) (XNum)))) (XBin (XNum) (XBin (XVar 71) (XNum))))];
Let 72 (XSel (XVar 2) [Sl (BIx (IC 1)) (BEnd 1) (SOne)]);
block [
Store 15 [Sl (BNone) (BNone) (SOne)] (XBin (XBin (XBin (XBin (XNum) (XBin (XNum) (XVar 72))) (XBin (XNum) (XBin (XVar 72) (XNum)))) (XBin (XNum) (XBin (XVar 72) (XNum)))) (XBin (XNum) (XBin (XVar 72) (XNum))))];
Let 73 (XSel (XVar 2) [Sl (BIx (IC 1)) (BEnd 1) (SOne)]);
block [
Store 16 [Sl (BNone) (BNone) (SOne)] (XBin (XBin (XBin (XBin (XNum) (XBin (XNum) (XVar 73))) (XBin (XNum) (XBin (XVar 73) (XNum)))) (XBin (XNum) (XBin (XVar 73) (XNum)))) (XBin (XNum) (XBin (XVar 73) (XNum))))]];
block [
Store 17 [Sl (BNone) (BNone) (SOne)] (XBin (XBin (XBin (XNum) (XSel (XVar 14) [Sl (BNone) (BEnd 1) (SOne)])) (XSel (XVar 14) [Sl (BIx (IC 1)) (BNone) (SOne)])) (XBin (XSel (XVar 14) [Sl (BNone) (BEnd 1) (SOne)]) (XSel (XVar 14) [Sl (BIx (IC 1)) (BNone) (SOne)])))];
block [
Store 28 [Sl (BIx (IC 1)) (BEnd 1) (SOne)] (XBin (XBin (XBin (XVar 45) (XVar 35)) (XVar 17)) (XVar 29))];
Let 74 (XSel (XVar 2) [Sl (BIx (IC 1)) (BEnd 1) (SOne)]);
Let 75 (XSel (XVar 5) [At (IC 0)]);
block [
Store 4 [Sl (BNone) (BNone) (SOne)] (XBin (XVar 75) (XBin (XBin (XBin (XVar 74) (XVar 75)) (XVar 30)) (XBin (XVar 27) (XVar 48))))];
Let 76 (XSel (XVar 2) [Sl (BIx (IC 1)) (BEnd 1) (SOne)]);
block [
Let 77 (XLike (XVar 15));
Let 78 (XLike (XVar 76));
Let 79 (XLike (XVar 15));
Let 80 (XBin (XVar 8) (XBin (XVar 15) (XVar 45)));
block [
Store 77 [Sl (BNone) (BNone) (SOne)] (XBin (XBin (XVar 80) (XVar 38)) (XVar 16))];
block [
Store 78 [Sl (BNone) (BNone) (SOne)] (XBin (XBin (XBin (XNum) (XBin (XNum) (XVar 76))) (XBin (XNum) (XBin (XVar 76) (XNum)))) (XBin (XNum) (XBin (XVar 76) (XNum))))];
Let 81 (XBin (XVar 77) (XVar 78));
If (XBin (XSel (XVar 8) [At (IC 0)]) (XNum))
(block [
Let 82 (XSel (XVar 39) [Sl (BNone) (BNone) (SRev)])])
(block [
Let 82 (XSel (XVar 39) [Sl (BNone) (BNone) (SOne)])]);
MkMask 83 (XBin (XVar 77) (XNum));
StoreMask 79 83 false (XBin (XBin (XNum) (XBin (XBin (XBin (XNum) (XBin (XBin (XBin (XMask (XVar 81) 83 false) (XVar 38)) (XMask (XVar 82) 83 false)) (XBin (XNum) (XNum)))) (XNum)) (XNum))) (XBin (XNum) (XNum)));
Let 84 (XBin (XBin (XBin (XNum) (XMask (XVar 77) 83 true)) (XNum)) (XInt (IC (-2))));
StoreMask 79 83 true (XBin (XBin (XBin (XBin (XVar 84) (XNum)) (XMask (XVar 81) 83 true)) (XBin (XNum) (XBin (XBin (XNum) (XBin (XBin (XMask (XVar 78) 83 true) (XBin (XNum) (XNum))) (XNum))) (XBin (XBin (XVar 84) (XNum)) (XNum))))) (XBin (XNum) (XBin (XBin (XBin (XVar 38) (XMask (XVar 82) 83 true)) (XBin (XNum) (XNum))) (XNum))));
Store 26 [Sl (BNone) (BNone) (SOne)] (XBin (XBin (XVar 79) (XVar 14)) (XVar 38))];
Let 85 (XSel (XVar 5) [At (IC 0)]);
block [
Let 86 (XNum);
Let 87 (XNum);
Let 88 (XBin (XBin (XVar 85) (XVar 4)) (XNum));
Let 89 (XLike (XVar 88));
Let 90 (XLike (XVar 88));
block [
Store 89 [Sl (BNone) (BNone) (SOne)] (XBin (XBin (XNum) (XBin (XNum) (XVar 88))) (XBin (XNum) (XBin (XVar 88) (XNum))))];
block [
Store 90 [Sl (BNone) (BNone) (SOne)] (XBin (XBin (XNum) (XBin (XNum) (XVar 88))) (XBin (XNum) (XBin (XVar 88) (XNum))))];
Let 91 (XBin (XBin (XBin (XBin (XBin (XVar 4) (XVar 85)) (XNum)) (XBin (XVar 40) (XNum))) (XVar 87)) (XBin (XBin (XVar 85) (XVar 86)) (XBin (XVar 89) (XNum))));
If (XVar 51)
(block [
Let 92 (XNum);
Let 93 (XBin (XBin (XBin (XNum) (XBin (XNum) (XBin (XBin (XVar 91) (XVar 92)) (XBin (XNum) (XNum))))) (XNum)) (XBin (XBin (XNum) (XVar 40)) (XBin (XNum) (XVar 41))))])
(block [
Let 92 (XNum);
Let 93 (XBin (XBin (XNum) (XBin (XNum) (XBin (XBin (XVar 91) (XVar 92)) (XBin (XNum) (XNum))))) (XNum))]);
Store 27 [Sl (BNone) (BNone) (SOne)] (XBin (XBin (XVar 93) (XVar 90)) (XVar 40))];
block [
Store 30 [Sl (BNone) (BNone) (SOne)] (XBin (XVar 47) (XBin (XBin (XBin (XBin (XNum) (XVar 26)) (XBin (XVar 42) (XVar 22))) (XBin (XVar 43) (XVar 23))) (XBin (XVar 44) (XVar 27))))];
block [
Store 21 [Sl (BNone) (BNone) (SOne)] (XBin (XVar 15) (XSel (XVar 13) [Sl (BIx (IC 1)) (BEnd 1) (SOne)]));
Store 20 [Sl (BNone) (BNone) (SOne)] (XBin (XBin (XVar 46) (XVar 21)) (XVar 24));
Store 25 [Sl (BNone) (BNone) (SOne)] (XBin (XSel (XVar 13) [Sl (BIx (IC 1)) (BEnd 1) (SOne)]) (XSel (XVar 2) [Sl (BIx (IC 1)) (BEnd 1) (SOne)]))];
Let 94 (XSel (XVar 2) [Sl (BIx (IC 1)) (BEnd 1) (SOne)]);
block [
Let 95 (XLike (XVar 33));
For 96 (ISize 34)
(block [
Let 97 (XSel (XVar 6) [At (IElem 34 (IV 96))]);
LetInt 98 (IElem 33 (IV 96));
StoreFlat 3 (IV 96) (XVar 97);
block [
Let 99 (XBin (XBin (XBin (XBin (XNum) (XBin (XNum) (XVar 97))) (XBin (XNum) (XBin (XVar 97) (XNum)))) (XBin (XNum) (XBin (XVar 97) (XNum)))) (XBin (XNum) (XBin (XVar 97) (XNum))))];
StoreFlat 18 (IV 96) (XVar 99);
block [
Let 100 (XBin (XBin (XBin (XNum) (XBin (XNum) (XVar 97))) (XBin (XNum) (XBin (XVar 97) (XNum)))) (XBin (XNum) (XBin (XVar 97) (XNum))))];
StoreFlat 19 (IV 96) (XVar 100);
StoreFlat 31 (IV 96) (XBin (XBin (XSel (XVar 49) [At (IV 96)]) (XBin (XBin (XSel (XVar 36) [At (IV 96)]) (XBin (XNum) (XSel (XVar 19) [At (IV 96)]))) (XBin (XVar 35) (XBin (XNum) (XFlat (XVar 14) (IV 98)))))) (XSel (XVar 32) [At (IV 96)]));
StoreFlat 95 (IV 96) (XBin (XBin (XFlat (XVar 31) (IV 96)) (XBin (XVar 97) (XFlat (XVar 94) (IV 98)))) (XFlat (XVar 20) (IV 98)))]);
Let 101 (XVar 95)];
Let 102 (XVar 101);
Let 103 (XVar 55);
block [
Let 104 (XNew [IC 3]);
Store 104 [At (IC 0)] (XBin (XBin (XRed true (XBin (XSel (XVar 28) [Sl (BIx (IC 1)) (BEnd 1) (SOne)]) (XSel (XVar 21) [Sl (BIx (IC 1)) (BNone) (SOne)]))) (XVar 1)) (XBin (XVar 45) (XVar 35)));
Store 104 [At (IC 1)] (XBin (XBin (XRed true (XBin (XVar 31) (XBin (XVar 49) (XVar 37)))) (XVar 1)) (XRed true (XVar 21)));
Store 104 [At (IC 2)] (XBin (XBin (XRed true (XBin (XVar 30) (XVar 21))) (XVar 1)) (XBin (XVar 48) (XVar 41)));
Let 105 (XRed true (XVar 104));
Let 106 (XBin (XVar 46) (XRed true (XVar 15)));
Let 107 (XBin (XBin (XRed true (XVar 7)) (XVar 1)) (XVar 106));
Let 108 (XBin (XVar 105) (XNum));
Let 109 (XBin (XVar 107) (XNum));
Let 110 (XBin (XVar 108) (XVar 109));
If (XBin (XVar 110) (XNum))
(block [
If (XNum)
(block [
Store 53 [At (IC 0)] (XNum);
Store 103 [] (XNum);
Let 111 (XBin (XBin (XVar 1) (XVar 110)) (XNum));
If (XBin (XSel (XVar 57) [At (IC 0)]) (XVar 111))
(block [
Store 57 [At (IC 0)] (XVar 111)])
(Skip);
If (XBin (XSel (XVar 59) [At (IC 0)]) (XNum))
(block [
Store 59 [At (IC 0)] (XBin (XSel (XVar 59) [At (IC 0)]) (XNum));
If (XBin (XSel (XVar 59) [At (IC 0)]) (XNum))
(block [
Store 59 [At (IC 0)] (XNum)])
(Skip)])
(Skip)])
(block [
Raise])])
(Skip);
Let 112 (XVar 53);
Let 113 (XVar 57);
Let 114 (XVar 59)];
Let 53 (XVar 112);
Let 57 (XVar 113);
Let 59 (XVar 114);
Store 61 [Sl (BNone) (BNone) (SOne)] (XBin (XBin (XBin (XBin (XSel (XVar 28) [Sl (BNone) (BEnd 1) (SOne)]) (XBin (XSel (XVar 2) [Sl (BNone) (BEnd 2) (SOne)]) (XSel (XVar 2) [Sl (BIx (IC 1)) (BEnd 1) (SOne)]))) (XBin (XSel (XVar 28) [Sl (BIx (IC 1)) (BNone) (SOne)]) (XBin (XSel (XVar 2) [Sl (BIx (IC 2)) (BNone) (SOne)]) (XSel (XVar 2) [Sl (BIx (IC 1)) (BEnd 1) (SOne)])))) (XBin (XVar 30) (XBin (XSel (XVar 5) [At (IC 0)]) (XSel (XVar 2) [Sl (BIx (IC 1)) (BEnd 1) (SOne)])))) (XVar 20));
Store 62 [Sl (BNone) (BNone) (SOne)] (XBin (XBin (XBin (XVar 9) (XBin (XBin (XSel (XVar 13) [Sl (BNone) (BEnd 2) (SOne)]) (XSel (XVar 2) [Sl (BNone) (BEnd 2) (SOne)])) (XVar 25))) (XBin (XVar 10) (XBin (XBin (XSel (XVar 13) [Sl (BIx (IC 2)) (BNone) (SOne)]) (XSel (XVar 2) [Sl (BIx (IC 2)) (BNone) (SOne)])) (XVar 25)))) (XVar 20));
For 115 (ISize 33)
(block [
LetInt 116 (IElem 33 (IV 115));
Store 61 [At (IV 116)] (XSel (XVar 102) [At (IV 115)]);
Store 62 [At (IV 116)] (XBin (XBin (XSel (XVar 11) [At (IV 115)]) (XBin (XBin (XSel (XVar 18) [At (IV 115)]) (XSel (XVar 3) [At (IV 115)])) (XSel (XVar 25) [At (IV 116)]))) (XSel (XVar 20) [At (IV 116)]))]);
Store 63 [Sl (BNone) (BNone) (SOne)] (XBin (XVar 61) (XVar 62));
Let 117 (XVar 63)];
Let 118 (XVar 63)]).
(** multisim/parts/pipe_with_valve.py 396: PipeWith3wValve.get_diff *)
Definition m_PipeWithValve : method := mkM "PipeWithValve" "get_diff"
  [("timestep", 1); ("_T_ext", 2); ("_T_port", 3); ("_T_s", 4); ("_T_amb", 5); ("ports_all", 6); ("_dm_io", 7); ("dm", 8); ("_dm_top", 9); ("_dm_bot", 10); ("_dm_port", 11); ("res_dm", 12); ("_cp_T", 13); ("_lam_T", 14); ("_rho_T", 15); ("_ny_T", 16); ("_lam_mean", 17); ("_cp_port", 18); ("_lam_port_fld", 19); ("_mcp", 20); ("_rhocp", 21); ("_lam_wll", 22); ("_lam_ins", 23); ("_mcp_wll", 24); ("_ui", 25); ("_alpha_i", 26); ("_alpha_inf", 27); ("_UA_tb", 28); ("_UA_tb_wll", 29); ("_UA_amb_shell", 30); ("_UA_port", 31); ("_UA_port_wll", 32); ("_port_own_idx", 33); ("_port_link_idx", 34); ("grid_spacing", 35); ("_port_gsp", 36); ("_port_subs_gsp", 37); ("_d_i", 38); ("_cell_dist", 39); ("_flow_length", 40); ("_r_total", 41); ("_r_ln_wll", 42); ("_r_ln_ins", 43); ("_r_rins", 44); ("A_cell", 45); ("V_cell", 46); ("_A_shell_i", 47); ("_A_shell_ins", 48); ("_A_p_fld_mean", 49); ("_process_flows", 50); ("_vertical", 51); ("_step_stable", 52); ("part_id", 54); ("_stability_breaches", 55); ("_vN_max_step", 56); ("_max_factor", 58); ("stepnum", 60); ("dT_cond", 61); ("dT_adv", 62); ("dT_total", 63)]
(block [
Let 53 (XVar 52);
Let 57 (XVar 56);
Let 59 (XVar 58);
block [
block [
If (XSel (XVar 50) [At (IC 0)])
(block [
Store 8 [Sl (BNone) (BNone) (SOne)] (XNum);
Let 64 (XCum (XVar 7));
For 65 (ISub (ISize 33) (IC 1))
(block [
Store 8 [Sl (BIx (IElem 33 (IV 65))) (BIx (IElem 33 (IAdd (IV 65) (IC 1)))) (SOne)] (XSel (XVar 64) [At (IV 65)])]);
Store 11 [Sl (BNone) (BNone) (SOne)] (XVar 7);
Store 9 [Sl (BIx (IC 1)) (BNone) (SOne)] (XSel (XVar 8) [Sl (BNone) (BEnd 1) (SOne)]);
Store 10 [Sl (BNone) (BEnd 1) (SOne)] (XSel (XVar 8) [Sl (BNone) (BEnd 1) (SOne)]);
MkMask 66 (XBin (XVar 9) (XNum));
StoreMask 9 66 true (XNum);
MkMask 67 (XBin (XVar 10) (XNum));
StoreMask 10 67 true (XNum);
Let 68 (XRavel (XVar 11));
MkMask 69 (XBin (XVar 68) (XNum));
StoreMask 68 69 true (XNum);
Store 8 [End 1] (XSel (XVar 8) [End 2]);
Store 12 [At (IElem 60 (IC 0))] (XVar 8)])
(Skip);
Let 70 (XNum)];
Store 50 [At (IC 0)] (XVar 70);
block [
block [
Store 13 [Sl (BNone) (BNone) (SOne)] (XBin (XBin (XBin (XBin (XNum) (XBin (XNum) (XVar 2))) (XBin (XNum) (XBin (XVar 2) (XNum)))) (XBin (XNum) (XBin (XVar 2) (XNum)))) (XBin (XNum) (XBin (XVar 2) (XNum))))];
Let 71 (XSel (XVar 2) [Sl (BIx (IC 1)) (BEnd 1) (SOne)]);
block [
Store 14 [Sl (BNone) (BNone) (SOne)] (XBin (XBin (XBin (XNum) (XBin (XNum) (XVar 71))) (XBin (XNum) (XBin (XVar 71) (XNum)))) (XBin (XNum) (XBin (XVar 71) (XNum))))];
Let 72 (XSel (XVar 2) [Sl (BIx (IC 1)) (BEnd 1) (SOne)]);
block [
Store 15 [Sl (BNone) (BNone) (SOne)] (XBin (XBin (XBin (XBin (XNum) (XBin (XNum) (XVar 72))) (XBin (XNum) (XBin (XVar 72) (XNum)))) (XBin (XNum) (XBin (XVar 72) (XNum)))) (XBin (XNum) (XBin (XVar 72) (XNum))))];
Let 73 (XSel (XVar 2) [Sl (BIx (IC 1)) (BEnd 1) (SOne)]);
block [
Store 16 [Sl (BNone) (BNone) (SOne)] (XBin (XBin (XBin (XBin (XNum) (XBin (XNum) (XVar 73))) (XBin (XNum) (XBin (XVar 73) (XNum)))) (XBin (XNum) (XBin (XVar 73) (XNum)))) (XBin (XNum) (XBin (XVar 73) (XNum))))]];
block [
Store 17 [Sl (BNone) (BNone) (SOne)] (XBin (XBin (XBin (XNum) (XSel (XVar 14) [Sl (BNone) (BEnd 1) (SOne)])) (XSel (XVar 14) [Sl (BIx (IC 1)) (BNone) (SOne)])) (XBin (XSel (XVar 14) [Sl (BNone) (BEnd 1) (SOne)]) (XSel (XVar 14) [Sl (BIx (IC 1)) (BNone) (SOne)])))];
block [
Store 28 [Sl (BIx (IC 1)) (BEnd 1) (SOne)] (XBin (XBin (XBin (XVar 45) (XVar 35)) (XVar 17)) (XVar 29))];
Let 74 (XSel (XVar 2) [Sl (BIx (IC 1)) (BEnd 1) (SOne)]);
Let 75 (XSel (XVar 5) [At (IC 0)]);
block [
Store 4 [Sl (BNone) (BNone) (SOne)] (XBin (XVar 75) (XBin (XBin (XBin (XVar 74) (XVar 75)) (XVar 30)) (XBin (XVar 27) (XVar 48))))];
Let 76 (XSel (XVar 2) [Sl (BIx (IC 1)) (BEnd 1) (SOne)]);
block [
Let 77 (XLike (XVar 15));
Let 78 (XLike (XVar 76));
Let 79 (XLike (XVar 15));
Let 80 (XBin (XVar 8) (XBin (XVar 15) (XVar 45)));
block [
Store 77 [Sl (BNone) (BNone) (SOne)] (XBin (XBin (XVar 80) (XVar 38)) (XVar 16))];
block [
Store 78 [Sl (BNone) (BNone) (SOne)] (XBin (XBin (XBin (XNum) (XBin (XNum) (XVar 76))) (XBin (XNum) (XBin (XVar 76) (XNum)))) (XBin (XNum) (XBin (XVar 76) (XNum))))];
Let 81 (XBin (XVar 77) (XVar 78));
If (XBin (XSel (XVar 8) [At (IC 0)]) (XNum))
(block [
Let 82 (XSel (XVar 39) [Sl (BNone) (BNone) (SRev)])])
(block [
Let 82 (XSel (XVar 39) [Sl (BNone) (BNone) (SOne)])]);
MkMask 83 (XBin (XVar 77) (XNum));
StoreMask 79 83 false (XBin (XBin (XNum) (XBin (XBin (XBin (XNum) (XBin (XBin (XBin (XMask (XVar 81) 83 false) (XVar 38)) (XMask (XVar 82) 83 false)) (XBin (XNum) (XNum)))) (XNum)) (XNum))) (XBin (XNum) (XNum)));
Let 84 (XBin (XBin (XBin (XNum) (XMask (XVar 77) 83 true)) (XNum)) (XInt (IC (-2))));
StoreMask 79 83 true (XBin (XBin (XBin (XBin (XVar 84) (XNum)) (XMask (XVar 81) 83 true)) (XBin (XNum) (XBin (XBin (XNum) (XBin (XBin (XMask (XVar 78) 83 true) (XBin (XNum) (XNum))) (XNum))) (XBin (XBin (XVar 84) (XNum)) (XNum))))) (XBin (XNum) (XBin (XBin (XBin (XVar 38) (XMask (XVar 82) 83 true)) (XBin (XNum) (XNum))) (XNum))));
Store 26 [Sl (BNone) (BNone) (SOne)] (XBin (XBin (XVar 79) (XVar 14)) (XVar 38))];
Let 85 (XSel (XVar 5) [At (IC 0)]);
block [
Let 86 (XNum);
Let 87 (XNum);
Let 88 (XBin (XBin (XVar 85) (XVar 4)) (XNum));
Let 89 (XLike (XVar 88));
Let 90 (XLike (XVar 88));
block [
Store 89 [Sl (BNone) (BNone) (SOne)] (XBin (XBin (XNum) (XBin (XNum) (XVar 88))) (XBin (XNum) (XBin (XVar 88) (XNum))))];
block [
Store 90 [Sl (BNone) (BNone) (SOne)] (XBin (XBin (XNum) (XBin (XNum) (XVar 88))) (XBin (XNum) (XBin (XVar 88) (XNum))))];
Let 91 (XBin (XBin (XBin (XBin (XBin (XVar 4) (XVar 85)) (XNum)) (XBin (XVar 40) (XNum))) (XVar 87)) (XBin (XBin (XVar 85) (XVar 86)) (XBin (XVar 89) (XNum))));
If (XVar 51)
(block [
Let 92 (XNum);
Let 93 (XBin (XBin (XBin (XNum) (XBin (XNum) (XBin (XBin (XVar 91) (XVar 92)) (XBin (XNum) (XNum))))) (XNum)) (XBin (XBin (XNum) (XVar 40)) (XBin (XNum) (XVar 41))))])
(block [
Let 92 (XNum);
Let 93 (XBin (XBin (XNum) (XBin (XNum) (XBin (XBin (XVar 91) (XVar 92)) (XBin (XNum) (XNum))))) (XNum))]);
Store 27 [Sl (BNone) (BNone) (SOne)] (XBin (XBin (XVar 93) (XVar 90)) (XVar 40))];
block [
Store 30 [Sl (BNone) (BNone) (SOne)] (XBin (XVar 47) (XBin (XBin (XBin (XBin (XNum) (XVar 26)) (XBin (XVar 42) (XVar 22))) (XBin (XVar 43) (XVar 23))) (XBin (XVar 44) (XVar 27))))];
block [
Store 21 [Sl (BNone) (BNone) (SOne)] (XBin (XVar 15) (XSel (XVar 13) [Sl (BIx (IC 1)) (BEnd 1) (SOne)]));
Store 20 [Sl (BNone) (BNone) (SOne)] (XBin (XBin (XVar 46) (XVar 21)) (XVar 24));
Store 25 [Sl (BNone) (BNone) (SOne)] (XBin (XSel (XVar 13) [Sl (BIx (IC 1)) (BEnd 1) (SOne)]) (XSel (XVar 2) [Sl (BIx (IC 1)) (BEnd 1) (SOne)]))];
Let 94 (XSel (XVar 2) [Sl (BIx (IC 1)) (BEnd 1) (SOne)]);
block [
Let 95 (XLike (XVar 33));
For 96 (ISize 34)
(block [
Let 97 (XSel (XVar 6) [At (IElem 34 (IV 96))]);
LetInt 98 (IElem 33 (IV 96));
StoreFlat 3 (IV 96) (XVar 97);
block [
Let 99 (XBin (XBin (XBin (XBin (XNum) (XBin (XNum) (XVar 97))) (XBin (XNum) (XBin (XVar 97) (XNum)))) (XBin (XNum) (XBin (XVar 97) (XNum)))) (XBin (XNum) (XBin (XVar 97) (XNum))))];
StoreFlat 18 (IV 96) (XVar 99);
block [
Let 100 (XBin (XBin (XBin (XNum) (XBin (XNum) (XVar 97))) (XBin (XNum) (XBin (XVar 97) (XNum)))) (XBin (XNum) (XBin (XVar 97) (XNum))))];
StoreFlat 19 (IV 96) (XVar 100);
StoreFlat 31 (IV 96) (XBin (XBin (XSel (XVar 49) [At (IV 96)]) (XBin (XBin (XSel (XVar 36) [At (IV 96)]) (XBin (XNum) (XSel (XVar 19) [At (IV 96)]))) (XBin (XVar 35) (XBin (XNum) (XFlat (XVar 14) (IV 98)))))) (XSel (XVar 32) [At (IV 96)]));
StoreFlat 95 (IV 96) (XBin (XBin (XFlat (XVar 31) (IV 96)) (XBin (XVar 97) (XFlat (XVar 94) (IV 98)))) (XFlat (XVar 20) (IV 98)))]);
Let 101 (XVar 95)];
Let 102 (XVar 101);
Let 103 (XVar 55);
block [
Let 104 (XNew [IC 3]);
Store 104 [At (IC 0)] (XBin (XBin (XRed true (XBin (XSel (XVar 28) [Sl (BIx (IC 1)) (BEnd 1) (SOne)]) (XSel (XVar 21) [Sl (BIx (IC 1)) (BNone) (SOne)]))) (XVar 1)) (XBin (XVar 45) (XVar 35)));
Store 104 [At (IC 1)] (XBin (XBin (XRed true (XBin (XVar 31) (XBin (XVar 49) (XVar 37)))) (XVar 1)) (XRed true (XVar 21)));
Store 104 [At (IC 2)] (XBin (XBin (XRed true (XBin (XVar 30) (XVar 21))) (XVar 1)) (XBin (XVar 48) (XVar 41)));
Let 105 (XRed true (XVar 104));
Let 106 (XBin (XVar 46) (XRed true (XVar 15)));
Let 107 (XBin (XBin (XRed true (XVar 7)) (XVar 1)) (XVar 106));
Let 108 (XBin (XVar 105) (XNum));
Let 109 (XBin (XVar 107) (XNum));
Let 110 (XBin (XVar 108) (XVar 109));
If (XBin (XVar 110) (XNum))
(block [
If (XNum)
(block [
Store 53 [At (IC 0)] (XNum);
Store 103 [] (XNum);
Let 111 (XBin (XBin (XVar 1) (XVar 110)) (XNum));
If (XBin (XSel (XVar 57) [At (IC 0)]) (XVar 111))
(block [
Store 57 [At (IC 0)] (XVar 111)])
(Skip);
If (XBin (XSel (XVar 59) [At (IC 0)]) (XNum))
(block [
Store 59 [At (IC 0)] (XBin (XSel (XVar 59) [At (IC 0)]) (XNum));
If (XBin (XSel (XVar 59) [At (IC 0)]) (XNum))
(block [
Store 59 [At (IC 0)] (XNum)])
(Skip)])
(Skip)])
(block [
Raise])])
(Skip);
Let 112 (XVar 53);
Let 113 (XVar 57);
Let 114 (XVar 59)];
Let 53 (XVar 112);
Let 57 (XVar 113);
Let 59 (XVar 114);
Store 61 [Sl (BNone) (BNone) (SOne)] (XBin (XBin (XBin (XBin (XSel (XVar 28) [Sl (BNone) (BEnd 1) (SOne)]) (XBin (XSel (XVar 2) [Sl (BNone) (BEnd 2) (SOne)]) (XSel (XVar 2) [Sl (BIx (IC 1)) (BEnd 1) (SOne)]))) (XBin (XSel (XVar 28) [Sl (BIx (IC 1)) (BNone) (SOne)]) (XBin (XSel (XVar 2) [Sl (BIx (IC 2)) (BNone) (SOne)]) (XSel (XVar 2) [Sl (BIx (IC 1)) (BEnd 1) (SOne)])))) (XBin (XVar 30) (XBin (XSel (XVar 5) [At (IC 0)]) (XSel (XVar 2) [Sl (BIx (IC 1)) (BEnd 1) (SOne)])))) (XVar 20));
Store 62 [Sl (BNone) (BNone) (SOne)] (XBin (XBin (XBin (XVar 9) (XBin (XBin (XSel (XVar 13) [Sl (BNone) (BEnd 2) (SOne)]) (XSel (XVar 2) [Sl (BNone) (BEnd 2) (SOne)])) (XVar 25))) (XBin (XVar 10) (XBin (XBin (XSel (XVar 13) [Sl (BIx (IC 2)) (BNone) (SOne)]) (XSel (XVar 2) [Sl (BIx (IC 2)) (BNone) (SOne)])) (XVar 25)))) (XVar 20));
For 115 (ISize 33)
(block [
LetInt 116 (IElem 33 (IV 115));
Store 61 [At (IV 116)] (XSel (XVar 102) [At (IV 115)]);
Store 62 [At (IV 116)] (XBin (XBin (XSel (XVar 11) [At (IV 115)]) (XBin (XBin (XSel (XVar 18) [At (IV 115)]) (XSel (XVar 3) [At (IV 115)])) (XSel (XVar 25) [At (IV 116)]))) (XSel (XVar 20) [At (IV 116)]))]);
Store 63 [Sl (BNone) (BNone) (SOne)] (XBin (XVar 61) (XVar 62));
Let 117 (XVar 63)];
Let 118 (XVar 63)]).
(** multisim/parts/heated_pipe.py 241: HeatedPipe.get_diff *)
Definition m_HeatedPipe : method := mkM "HeatedPipe" "get_diff"
  [("timestep", 1); ("_T_ext", 2); ("_T_port", 3); ("_T_s", 4); ("_T_amb", 5); ("ports_all", 6); ("_dm_io", 7); ("_dm_top", 8); ("_dm_bot", 9); ("_dm_port", 10); ("_dQ_heating", 11); ("res_dm", 12); ("res_dQ", 13); ("_cp_T", 14); ("_lam_T", 15); ("_rho_T", 16); ("_ny_T", 17); ("_lam_mean", 18); ("_cp_port", 19); ("_lam_port_fld", 20); ("_mcp", 21); ("_mcp_heated", 22); ("_rhocp", 23); ("_lam_wll", 24); ("_lam_ins", 25); ("_mcp_wll", 26); ("_ui", 27); ("_alpha_i", 28); ("_alpha_inf", 29); ("_UA_tb", 30); ("_UA_tb_wll", 31); ("_UA_amb_shell", 32); ("_UA_port", 33); ("_UA_port_wll", 34); ("_port_own_idx", 35); ("_port_link_idx", 36); ("_heat_mult", 37); ("grid_spacing", 38); ("_port_gsp", 39); ("_port_subs_gsp", 40); ("_d_i", 41); ("_cell_dist", 42); ("_flow_length", 43); ("_r_total", 44); ("_r_ln_wll", 45); ("_r_ln_ins", 46); ("_r_rins", 47); ("A_cell", 48); ("V_cell", 49); ("_A_shell_i", 50); ("_A_shell_ins", 51); ("_A_p_fld_mean", 52); ("_process_flows", 53); ("_vertical", 54); ("_step_stable", 55); ("part_id", 57); ("_stability_breaches", 58); ("_vN_max_step", 59); ("_max_factor", 61); ("stepnum", 63); ("dT_cond", 64); ("dT_adv", 65); ("dT_heat", 66); ("_dT_heated", 67); ("dT_total", 122)]
(block [
Let 56 (XVar 55);
Let 60 (XVar 59);
Let 62 (XVar 61);
Let 68 XNum;
block [
If (XRed false (XBin (XVar 2) (XVar 68)))
(block [
Store 11 [Sl (BNone) (BNone) (SOne)] (XNum)])
(Skip);
If (XSel (XVar 53) [At (IC 0)])
(block [
Store 13 [Pick 63] (XVar 11)])
(Skip);
block [
If (XSel (XVar 53) [At (IC 0)])
(block [
If (XBin (XSel (XVar 7) [At (IC 0)]) (XNum))
(block [
Store 8 [Sl (BIx (IC 1)) (BNone) (SOne)] (XSel (XVar 7) [At (IC 0)]);
Store 9 [Sl (BNone) (BEnd 1) (SOne)] (XNum)])
(block [
Store 9 [Sl (BNone) (BEnd 1) (SOne)] (XSel (XVar 7) [At (IC 0)]);
Store 8 [Sl (BIx (IC 1)) (BNone) (SOne)] (XNum)]);
If (XBin (XSel (XVar 7) [At (IC 0)]) (XNum))
(block [
Store 10 [At (IC 0)] (XSel (XVar 7) [At (IC 0)]);
Store 10 [End 1] (XNum)])
(block [
Store 10 [End 1] (XSel (XVar 7) [At (IC 0)]);
Store 10 [At (IC 0)] (XNum)]);
Store 12 [At (IElem 63 (IC 0))] (XSel (XVar 7) [At (IC 0)])])
(Skip);
Let 69 (XNum)];
Store 53 [At (IC 0)] (XVar 69);
block [
block [
Store 14 [Sl (BNone) (BNone) (SOne)] (XBin (XBin (XBin (XBin (XNum) (XBin (XNum) (XVar 2))) (XBin (XNum) (XBin (XVar 2) (XNum)))) (XBin (XNum) (XBin (XVar 2) (XNum)))) (XBin (XNum) (XBin (XVar 2) (XNum))))];
Let 70 (XSel (XVar 2) [Sl (BIx (IC 1)) (BEnd 1) (SOne)]);
block [
Store 15 [Sl (BNone) (BNone) (SOne)] (XBin (XBin (XBin (XNum) (XBin (XNum) (XVar 70))) (XBin (XNum) (XBin (XVar 70) (XNum)))) (XBin (XNum) (XBin (XVar 70) (XNum))))];
Let 71 (XSel (XVar 2) [Sl (BIx (IC 1)) (BEnd 1) (SOne)]);
block [
Store 16 [Sl (BNone) (BNone) (SOne)] (XBin (XBin (XBin (XBin (XNum) (XBin (XNum) (XVar 71))) (XBin (XNum) (XBin (XVar 71) (XNum)))) (XBin (XNum) (XBin (XVar 71) (XNum)))) (XBin (XNum) (XBin (XVar 71) (XNum))))];
Let 72 (XSel (XVar 2) [Sl (BIx (IC 1)) (BEnd 1) (SOne)]);
block [
Store 17 [Sl (BNone) (BNone) (SOne)] (XBin (XBin (XBin (XBin (XNum) (XBin (XNum) (XVar 72))) (XBin (XNum) (XBin (XVar 72) (XNum)))) (XBin (XNum) (XBin (XVar 72) (XNum)))) (XBin (XNum) (XBin (XVar 72) (XNum))))]];
block [
Store 18 [Sl (BNone) (BNone) (SOne)] (XBin (XBin (XBin (XNum) (XSel (XVar 15) [Sl (BNone) (BEnd 1) (SOne)])) (XSel (XVar 15) [Sl (BIx (IC 1)) (BNone) (SOne)])) (XBin (XSel (XVar 15) [Sl (BNone) (BEnd 1) (SOne)]) (XSel (XVar 15) [Sl (BIx (IC 1)) (BNone) (SOne)])))];
block [
Store 30 [Sl (BIx (IC 1)) (BEnd 1) (SOne)] (XBin (XBin (XBin (XVar 48) (XVar 38)) (XVar 18)) (XVar 31))];
Let 73 (XSel (XVar 2) [Sl (BIx (IC 1)) (BEnd 1) (SOne)]);
Let 74 (XSel (XVar 5) [At (IC 0)]);
block [
Store 4 [Sl (BNone) (BNone) (SOne)] (XBin (XVar 74) (XBin (XBin (XBin (XVar 73) (XVar 74)) (XVar 32)) (XBin (XVar 29) (XVar 51))))];
Let 75 (XSel (XVar 2) [Sl (BIx (IC 1)) (BEnd 1) (SOne)]);
block [
Let 76 (XLike (XVar 16));
Let 77 (XLike (XVar 75));
Let 78 (XLike (XVar 16));
Let 79 (XBin (XVar 7) (XBin (XVar 16) (XVar 48)));
block [
Store 76 [Sl (BNone) (BNone) (SOne)] (XBin (XBin (XVar 79) (XVar 41)) (XVar 17))];
block [
Store 77 [Sl (BNone) (BNone) (SOne)] (XBin (XBin (XBin (XNum) (XBin (XNum) (XVar 75))) (XBin (XNum) (XBin (XVar 75) (XNum)))) (XBin (XNum) (XBin (XVar 75) (XNum))))];
Let 80 (XBin (XVar 76) (XVar 77));
If (XBin (XSel (XVar 7) [At (IC 0)]) (XNum))
(block [
Let 81 (XSel (XVar 42) [Sl (BNone) (BNone) (SRev)])])
(block [
Let 81 (XSel (XVar 42) [Sl (BNone) (BNone) (SOne)])]);
MkMask 82 (XBin (XVar 76) (XNum));
StoreMask 78 82 false (XBin (XBin (XNum) (XBin (XBin (XBin (XNum) (XBin (XBin (XBin (XMask (XVar 80) 82 false) (XVar 41)) (XMask (XVar 81) 82 false)) (XBin (XNum) (XNum)))) (XNum)) (XNum))) (XBin (XNum) (XNum)));
Let 83 (XBin (XBin (XBin (XNum) (XMask (XVar 76) 82 true)) (XNum)) (XInt (IC (-2))));
StoreMask 78 82 true (XBin (XBin (XBin (XBin (XVar 83) (XNum)) (XMask (XVar 80) 82 true)) (XBin (XNum) (XBin (XBin (XNum) (XBin (XBin (XMask (XVar 77) 82 true) (XBin (XNum) (XNum))) (XNum))) (XBin (XBin (XVar 83) (XNum)) (XNum))))) (XBin (XNum) (XBin (XBin (XBin (XVar 41) (XMask (XVar 81) 82 true)) (XBin (XNum) (XNum))) (XNum))));
Store 28 [Sl (BNone) (BNone) (SOne)] (XBin (XBin (XVar 78) (XVar 15)) (XVar 41))];
Let 84 (XSel (XVar 5) [At (IC 0)]);
block [
Let 85 (XNum);
Let 86 (XNum);
Let 87 (XBin (XBin (XVar 84) (XVar 4)) (XNum));
Let 88 (XLike (XVar 87));
Let 89 (XLike (XVar 87));
block [
Store 88 [Sl (BNone) (BNone) (SOne)] (XBin (XBin (XNum) (XBin (XNum) (XVar 87))) (XBin (XNum) (XBin (XVar 87) (XNum))))];
block [
Store 89 [Sl (BNone) (BNone) (SOne)] (XBin (XBin (XNum) (XBin (XNum) (XVar 87))) (XBin (XNum) (XBin (XVar 87) (XNum))))];
Let 90 (XBin (XBin (XBin (XBin (XBin (XVar 4) (XVar 84)) (XNum)) (XBin (XVar 43) (XNum))) (XVar 86)) (XBin (XBin (XVar 84) (XVar 85)) (XBin (XVar 88) (XNum))));
If (XVar 54)
(block [
Let 91 (XNum);
Let 92 (XBin (XBin (XBin (XNum) (XBin (XNum) (XBin (XBin (XVar 90) (XVar 91)) (XBin (XNum) (XNum))))) (XNum)) (XBin (XBin (XNum) (XVar 43)) (XBin (XNum) (XVar 44))))])
(block [
Let 91 (XNum);
Let 92 (XBin (XBin (XNum) (XBin (XNum) (XBin (XBin (XVar 90) (XVar 91)) (XBin (XNum) (XNum))))) (XNum))]);
Store 29 [Sl (BNone) (BNone) (SOne)] (XBin (XBin (XVar 92) (XVar 89)) (XVar 43))];
block [
Store 32 [Sl (BNone) (BNone) (SOne)] (XBin (XVar 50) (XBin (XBin (XBin (XBin (XNum) (XVar 28)) (XBin (XVar 45) (XVar 24))) (XBin (XVar 46) (XVar 25))) (XBin (XVar 47) (XVar 29))))];
block [
Store 23 [Sl (BNone) (BNone) (SOne)] (XBin (XVar 16) (XSel (XVar 14) [Sl (BIx (IC 1)) (BEnd 1) (SOne)]));
Store 21 [Sl (BNone) (BNone) (SOne)] (XBin (XBin (XVar 49) (XVar 23)) (XVar 26));
Store 27 [Sl (BNone) (BNone) (SOne)] (XBin (XSel (XVar 14) [Sl (BIx (IC 1)) (BEnd 1) (SOne)]) (XSel (XVar 2) [Sl (BIx (IC 1)) (BEnd 1) (SOne)]))];
Let 93 (XSel (XVar 2) [Sl (BIx (IC 1)) (BEnd 1) (SOne)]);
block [
Let 94 (XLike (XVar 35));
For 95 (ISize 36)
(block [
Let 96 (XSel (XVar 6) [At (IElem 36 (IV 95))]);
LetInt 97 (IElem 35 (IV 95));
StoreFlat 3 (IV 95) (XVar 96);
block [
Let 98 (XBin (XBin (XBin (XBin (XNum) (XBin (XNum) (XVar 96))) (XBin (XNum) (XBin (XVar 96) (XNum)))) (XBin (XNum) (XBin (XVar 96) (XNum)))) (XBin (XNum) (XBin (XVar 96) (XNum))))];
StoreFlat 19 (IV 95) (XVar 98);
block [
Let 99 (XBin (XBin (XBin (XNum) (XBin (XNum) (XVar 96))) (XBin (XNum) (XBin (XVar 96) (XNum)))) (XBin (XNum) (XBin (XVar 96) (XNum))))];
StoreFlat 20 (IV 95) (XVar 99);
StoreFlat 33 (IV 95) (XBin (XBin (XSel (XVar 52) [At (IV 95)]) (XBin (XBin (XSel (XVar 39) [At (IV 95)]) (XBin (XNum) (XSel (XVar 20) [At (IV 95)]))) (XBin (XVar 38) (XBin (XNum) (XFlat (XVar 15) (IV 97)))))) (XSel (XVar 34) [At (IV 95)]));
StoreFlat 94 (IV 95) (XBin (XBin (XFlat (XVar 33) (IV 95)) (XBin (XVar 96) (XFlat (XVar 93) (IV 97)))) (XFlat (XVar 21) (IV 97)))]);
Let 100 (XVar 94)];
Let 101 (XVar 100);
Let 102 (XVar 58);
block [
Let 103 (XNew [IC 3]);
Store 103 [At (IC 0)] (XBin (XBin (XRed true (XBin (XSel (XVar 30) [Sl (BIx (IC 1)) (BEnd 1) (SOne)]) (XSel (XVar 23) [Sl (BIx (IC 1)) (BNone) (SOne)]))) (XVar 1)) (XBin (XVar 48) (XVar 38)));
Store 103 [At (IC 1)] (XBin (XBin (XRed true (XBin (XVar 33) (XBin (XVar 52) (XVar 40)))) (XVar 1)) (XRed true (XVar 23)));
Store 103 [At (IC 2)] (XBin (XBin (XRed true (XBin (XVar 32) (XVar 23))) (XVar 1)) (XBin (XVar 51) (XVar 44)));
Let 104 (XRed true (XVar 103));
Let 105 (XBin (XVar 49) (XRed true (XVar 16)));
Let 106 (XBin (XBin (XRed true (XVar 7)) (XVar 1)) (XVar 105));
Let 107 (XBin (XVar 104) (XNum));
Let 108 (XBin (XVar 106) (XNum));
Let 109 (XBin (XVar 107) (XVar 108));
If (XBin (XVar 109) (XNum))
(block [
If (XNum)
(block [
Store 56 [At (IC 0)] (XNum);
Store 102 [] (XNum);
Let 110 (XBin (XBin (XVar 1) (XVar 109)) (XNum));
If (XBin (XSel (XVar 60) [At (IC 0)]) (XVar 110))
(block [
Store 60 [At (IC 0)] (XVar 110)])
(Skip);
If (XBin (XSel (XVar 62) [At (IC 0)]) (XNum))
(block [
Store 62 [At (IC 0)] (XBin (XSel (XVar 62) [At (IC 0)]) (XNum));
If (XBin (XSel (XVar 62) [At (IC 0)]) (XNum))
(block [
Store 62 [At (IC 0)] (XNum)])
(Skip)])
(Skip)])
(block [
Raise])])
(Skip);
Let 111 (XVar 56);
Let 112 (XVar 60);
Let 113 (XVar 62)];
Let 56 (XVar 111);
Let 60 (XVar 112);
Let 62 (XVar 113);
Store 67 [Sl (BNone) (BNone) (SOne)] (XBin (XBin (XVar 11) (XVar 37)) (XVar 22));
Store 64 [Sl (BNone) (BNone) (SOne)] (XBin (XBin (XBin (XBin (XSel (XVar 30) [Sl (BNone) (BEnd 1) (SOne)]) (XBin (XSel (XVar 2) [Sl (BNone) (BEnd 2) (SOne)]) (XSel (XVar 2) [Sl (BIx (IC 1)) (BEnd 1) (SOne)]))) (XBin (XSel (XVar 30) [Sl (BIx (IC 1)) (BNone) (SOne)]) (XBin (XSel (XVar 2) [Sl (BIx (IC 2)) (BNone) (SOne)]) (XSel (XVar 2) [Sl (BIx (IC 1)) (BEnd 1) (SOne)])))) (XBin (XVar 32) (XBin (XSel (XVar 5) [At (IC 0)]) (XSel (XVar 2) [Sl (BIx (IC 1)) (BEnd 1) (SOne)])))) (XVar 21));
Store 65 [Sl (BNone) (BNone) (SOne)] (XBin (XBin (XBin (XVar 8) (XBin (XBin (XSel (XVar 14) [Sl (BNone) (BEnd 2) (SOne)]) (XSel (XVar 2) [Sl (BNone) (BEnd 2) (SOne)])) (XVar 27))) (XBin (XVar 9) (XBin (XBin (XSel (XVar 14) [Sl (BIx (IC 2)) (BNone) (SOne)]) (XSel (XVar 2) [Sl (BIx (IC 2)) (BNone) (SOne)])) (XVar 27)))) (XVar 21));
For 114 (ISize 35)
(block [
LetInt 115 (IElem 35 (IV 114));
Store 64 [At (IV 115)] (XSel (XVar 101) [At (IV 114)]);
Store 65 [At (IV 115)] (XBin (XBin (XSel (XVar 10) [At (IV 114)]) (XBin (XBin (XSel (XVar 19) [At (IV 114)]) (XSel (XVar 3) [At (IV 114)])) (XSel (XVar 27) [At (IV 115)]))) (XSel (XVar 21) [At (IV 115)]))]);
Let 116 (XBin (XBin (XVar 64) (XVar 65)) (XVar 66));
Let 117 (XVar 116);
Let 118 (XVar 53);
Let 119 (XVar 56);
Let 120 (XVar 60);
Let 121 (XVar 62)];
Let 122 (XVar 117);
Let 53 (XVar 118);
Let 55 (XVar 119);
Let 59 (XVar 120);
Let 61 (XVar 121);
Let 123 (XVar 122)]).
(** multisim/parts/chp_plant.py 900: CHPPlant.get_diff *)
Definition m_CHPPlant : method := mkM "CHPPlant" "get_diff"
  [("timestep", 1); ("_process_flows", 2); ("_dm_io", 3); ("_dm_top", 4); ("_dm_bot", 5); ("_dm_port", 6); ("stepnum", 7); ("res_dm", 8); ("_T_ext", 10); ("_cp_T", 11); ("_lam_T", 12); ("_rho_T", 13); ("_ny_T", 14); ("_lam_mean", 18); ("A_cell", 19); ("grid_spacing", 20); ("_UA_tb_wll", 21); ("_UA_tb", 22); ("_T_amb", 24); ("_A_shell_ins", 26); ("_alpha_inf", 27); ("_UA_amb_shell", 28); ("_T_s", 29); ("_d_i", 31); ("_cell_dist", 32); ("_alpha_i", 33); ("_flow_length", 43); ("_vertical", 44); ("_r_total", 45); ("_A_shell_i", 54); ("_r_ln_wll", 55); ("_r_ln_ins", 56); ("_r_rins", 57); ("_lam_wll", 58); ("_lam_ins", 59); ("V_cell", 60); ("_mcp_wll", 61); ("_rhocp", 62); ("_mcp", 63); ("_ui", 64); ("ports_all", 65); ("_port_link_idx", 66); ("_port_own_idx", 67); ("_UA_port", 69); ("_UA_port_wll", 70); ("_A_p_fld_mean", 71); ("_port_gsp", 72); ("_cp_port", 73); ("_lam_port_fld", 74); ("_T_port", 75); ("part_id", 84); ("_stability_breaches", 85); ("_port_subs_gsp", 87); ("_step_stable", 88); ("_vN_max_step", 89); ("_max_factor", 90); ("_dQ_heating", 102); ("_heat_mult", 103); ("_mcp_heated", 104); ("_dT_heated", 105); ("dT_cond", 106); ("dT_adv", 107); ("dT_heat", 110); ("dT_total", 111)]
(block [
block [
If (XSel (XVar 2) [At (IC 0)])
(block [
If (XBin (XSel (XVar 3) [At (IC 0)]) (XNum))
(block [
Store 4 [Sl (BIx (IC 1)) (BNone) (SOne)] (XSel (XVar 3) [At (IC 0)]);
Store 5 [Sl (BNone) (BEnd 1) (SOne)] (XNum)])
(block [
Store 5 [Sl (BNone) (BEnd 1) (SOne)] (XSel (XVar 3) [At (IC 0)]);
Store 4 [Sl (BIx (IC 1)) (BNone) (SOne)] (XNum)]);
If (XBin (XSel (XVar 3) [At (IC 0)]) (XNum))
(block [
Store 6 [At (IC 0)] (XSel (XVar 3) [At (IC 0)]);
Store 6 [End 1] (XNum)])
(block [
Store 6 [End 1] (XSel (XVar 3) [At (IC 0)]);
Store 6 [At (IC 0)] (XNum)]);
Store 8 [At (IElem 7 (IC 0))] (XSel (XVar 3) [At (IC 0)])])
(Skip);
Let 9 (XNum)];
Store 2 [At (IC 0)] (XVar 9);
block [
block [
Store 11 [Sl (BNone) (BNone) (SOne)] (XBin (XBin (XBin (XBin (XNum) (XBin (XNum) (XVar 10))) (XBin (XNum) (XBin (XVar 10) (XNum)))) (XBin (XNum) (XBin (XVar 10) (XNum)))) (XBin (XNum) (XBin (XVar 10) (XNum))))];
Let 15 (XSel (XVar 10) [Sl (BIx (IC 1)) (BEnd 1) (SOne)]);
block [
Store 12 [Sl (BNone) (BNone) (SOne)] (XBin (XBin (XBin (XNum) (XBin (XNum) (XVar 15))) (XBin (XNum) (XBin (XVar 15) (XNum)))) (XBin (XNum) (XBin (XVar 15) (XNum))))];
Let 16 (XSel (XVar 10) [Sl (BIx (IC 1)) (BEnd 1) (SOne)]);
block [
Store 13 [Sl (BNone) (BNone) (SOne)] (XBin (XBin (XBin (XBin (XNum) (XBin (XNum) (XVar 16))) (XBin (XNum) (XBin (XVar 16) (XNum)))) (XBin (XNum) (XBin (XVar 16) (XNum)))) (XBin (XNum) (XBin (XVar 16) (XNum))))];
Let 17 (XSel (XVar 10) [Sl (BIx (IC 1)) (BEnd 1) (SOne)]);
block [
Store 14 [Sl (BNone) (BNone) (SOne)] (XBin (XBin (XBin (XBin (XNum) (XBin (XNum) (XVar 17))) (XBin (XNum) (XBin (XVar 17) (XNum)))) (XBin (XNum) (XBin (XVar 17) (XNum)))) (XBin (XNum) (XBin (XVar 17) (XNum))))]];
block [
Store 18 [Sl (BNone) (BNone) (SOne)] (XBin (XBin (XBin (XNum) (XSel (XVar 12) [Sl (BNone) (BEnd 1) (SOne)])) (XSel (XVar 12) [Sl (BIx (IC 1)) (BNone) (SOne)])) (XBin (XSel (XVar 12) [Sl (BNone) (BEnd 1) (SOne)]) (XSel (XVar 12) [Sl (BIx (IC 1)) (BNone) (SOne)])))];
block [
Store 22 [Sl (BIx (IC 1)) (BEnd 1) (SOne)] (XBin (XBin (XBin (XVar 19) (XVar 20)) (XVar 18)) (XVar 21))];
Let 23 (XSel (XVar 10) [Sl (BIx (IC 1)) (BEnd 1) (SOne)]);
Let 25 (XSel (XVar 24) [At (IC 0)]);
block [
Store 29 [Sl (BNone) (BNone) (SOne)] (XBin (XVar 25) (XBin (XBin (XBin (XVar 23) (XVar 25)) (XVar 28)) (XBin (XVar 27) (XVar 26))))];
Let 30 (XSel (XVar 10) [Sl (BIx (IC 1)) (BEnd 1) (SOne)]);
block [
Let 34 (XLike (XVar 13));
Let 35 (XLike (XVar 30));
Let 36 (XLike (XVar 13));
Let 37 (XBin (XVar 3) (XBin (XVar 13) (XVar 19)));
block [
Store 34 [Sl (BNone) (BNone) (SOne)] (XBin (XBin (XVar 37) (XVar 31)) (XVar 14))];
block [
Store 35 [Sl (BNone) (BNone) (SOne)] (XBin (XBin (XBin (XNum) (XBin (XNum) (XVar 30))) (XBin (XNum) (XBin (XVar 30) (XNum)))) (XBin (XNum) (XBin (XVar 30) (XNum))))];
Let 38 (XBin (XVar 34) (XVar 35));
If (XBin (XSel (XVar 3) [At (IC 0)]) (XNum))
(block [
Let 39 (XSel (XVar 32) [Sl (BNone) (BNone) (SRev)])])
(block [
Let 39 (XSel (XVar 32) [Sl (BNone) (BNone) (SOne)])]);
MkMask 40 (XBin (XVar 34) (XNum));
StoreMask 36 40 false (XBin (XBin (XNum) (XBin (XBin (XBin (XNum) (XBin (XBin (XBin (XMask (XVar 38) 40 false) (XVar 31)) (XMask (XVar 39) 40 false)) (XBin (XNum) (XNum)))) (XNum)) (XNum))) (XBin (XNum) (XNum)));
Let 41 (XBin (XBin (XBin (XNum) (XMask (XVar 34) 40 true)) (XNum)) (XInt (IC (-2))));
StoreMask 36 40 true (XBin (XBin (XBin (XBin (XVar 41) (XNum)) (XMask (XVar 38) 40 true)) (XBin (XNum) (XBin (XBin (XNum) (XBin (XBin (XMask (XVar 35) 40 true) (XBin (XNum) (XNum))) (XNum))) (XBin (XBin (XVar 41) (XNum)) (XNum))))) (XBin (XNum) (XBin (XBin (XBin (XVar 31) (XMask (XVar 39) 40 true)) (XBin (XNum) (XNum))) (XNum))));
Store 33 [Sl (BNone) (BNone) (SOne)] (XBin (XBin (XVar 36) (XVar 12)) (XVar 31))];
Let 42 (XSel (XVar 24) [At (IC 0)]);
block [
Let 46 (XNum);
Let 47 (XNum);
Let 48 (XBin (XBin (XVar 42) (XVar 29)) (XNum));
Let 49 (XLike (XVar 48));
Let 50 (XLike (XVar 48));
block [
Store 49 [Sl (BNone) (BNone) (SOne)] (XBin (XBin (XNum) (XBin (XNum) (XVar 48))) (XBin (XNum) (XBin (XVar 48) (XNum))))];
block [
Store 50 [Sl (BNone) (BNone) (SOne)] (XBin (XBin (XNum) (XBin (XNum) (XVar 48))) (XBin (XNum) (XBin (XVar 48) (XNum))))];
Let 51 (XBin (XBin (XBin (XBin (XBin (XVar 29) (XVar 42)) (XNum)) (XBin (XVar 43) (XNum))) (XVar 47)) (XBin (XBin (XVar 42) (XVar 46)) (XBin (XVar 49) (XNum))));
If (XVar 44)
(block [
Let 52 (XNum);
Let 53 (XBin (XBin (XBin (XNum) (XBin (XNum) (XBin (XBin (XVar 51) (XVar 52)) (XBin (XNum) (XNum))))) (XNum)) (XBin (XBin (XNum) (XVar 43)) (XBin (XNum) (XVar 45))))])
(block [
Let 52 (XNum);
Let 53 (XBin (XBin (XNum) (XBin (XNum) (XBin (XBin (XVar 51) (XVar 52)) (XBin (XNum) (XNum))))) (XNum))]);
Store 27 [Sl (BNone) (BNone) (SOne)] (XBin (XBin (XVar 53) (XVar 50)) (XVar 43))];
block [
Store 28 [Sl (BNone) (BNone) (SOne)] (XBin (XVar 54) (XBin (XBin (XBin (XBin (XNum) (XVar 33)) (XBin (XVar 55) (XVar 58))) (XBin (XVar 56) (XVar 59))) (XBin (XVar 57) (XVar 27))))];
block [
Store 62 [Sl (BNone) (BNone) (SOne)] (XBin (XVar 13) (XSel (XVar 11) [Sl (BIx (IC 1)) (BEnd 1) (SOne)]));
Store 63 [Sl (BNone) (BNone) (SOne)] (XBin (XBin (XVar 60) (XVar 62)) (XVar 61));
Store 64 [Sl (BNone) (BNone) (SOne)] (XBin (XSel (XVar 11) [Sl (BIx (IC 1)) (BEnd 1) (SOne)]) (XSel (XVar 10) [Sl (BIx (IC 1)) (BEnd 1) (SOne)]))];
Let 68 (XSel (XVar 10) [Sl (BIx (IC 1)) (BEnd 1) (SOne)]);
block [
Let 76 (XLike (XVar 67));
For 77 (ISize 66)
(block [
Let 78 (XSel (XVar 65) [At (IElem 66 (IV 77))]);
LetInt 79 (IElem 67 (IV 77));
StoreFlat 75 (IV 77) (XVar 78);
block [
Let 80 (XBin (XBin (XBin (XBin (XNum) (XBin (XNum) (XVar 78))) (XBin (XNum) (XBin (XVar 78) (XNum)))) (XBin (XNum) (XBin (XVar 78) (XNum)))) (XBin (XNum) (XBin (XVar 78) (XNum))))];
StoreFlat 73 (IV 77) (XVar 80);
block [
Let 81 (XBin (XBin (XBin (XNum) (XBin (XNum) (XVar 78))) (XBin (XNum) (XBin (XVar 78) (XNum)))) (XBin (XNum) (XBin (XVar 78) (XNum))))];
StoreFlat 74 (IV 77) (XVar 81);
StoreFlat 69 (IV 77) (XBin (XBin (XSel (XVar 71) [At (IV 77)]) (XBin (XBin (XSel (XVar 72) [At (IV 77)]) (XBin (XNum) (XSel (XVar 74) [At (IV 77)]))) (XBin (XVar 20) (XBin (XNum) (XFlat (XVar 12) (IV 79)))))) (XSel (XVar 70) [At (IV 77)]));
StoreFlat 76 (IV 77) (XBin (XBin (XFlat (XVar 69) (IV 77)) (XBin (XVar 78) (XFlat (XVar 68) (IV 79)))) (XFlat (XVar 63) (IV 79)))]);
Let 82 (XVar 76)];
Let 83 (XVar 82);
Let 86 (XVar 85);
block [
Let 91 (XNew [IC 3]);
Store 91 [At (IC 0)] (XBin (XBin (XRed true (XBin (XSel (XVar 22) [Sl (BIx (IC 1)) (BEnd 1) (SOne)]) (XSel (XVar 62) [Sl (BIx (IC 1)) (BNone) (SOne)]))) (XVar 1)) (XBin (XVar 19) (XVar 20)));
Store 91 [At (IC 1)] (XBin (XBin (XRed true (XBin (XVar 69) (XBin (XVar 71) (XVar 87)))) (XVar 1)) (XRed true (XVar 62)));
Store 91 [At (IC 2)] (XBin (XBin (XRed true (XBin (XVar 28) (XVar 62))) (XVar 1)) (XBin (XVar 26) (XVar 45)));
Let 92 (XRed true (XVar 91));
Let 93 (XBin (XVar 60) (XRed true (XVar 13)));
Let 94 (XBin (XBin (XRed true (XVar 3)) (XVar 1)) (XVar 93));
Let 95 (XBin (XVar 92) (XNum));
Let 96 (XBin (XVar 94) (XNum));
Let 97 (XBin (XVar 95) (XVar 96));
If (XBin (XVar 97) (XNum))
(block [
If (XNum)
(block [
Store 88 [At (IC 0)] (XNum);
Store 86 [] (XNum);
Let 98 (XBin (XBin (XVar 1) (XVar 97)) (XNum));
If (XBin (XSel (XVar 89) [At (IC 0)]) (XVar 98))
(block [
Store 89 [At (IC 0)] (XVar 98)])
(Skip);
If (XBin (XSel (XVar 90) [At (IC 0)]) (XNum))
(block [
Store 90 [At (IC 0)] (XBin (XSel (XVar 90) [At (IC 0)]) (XNum));
If (XBin (XSel (XVar 90) [At (IC 0)]) (XNum))
(block [
Store 90 [At (IC 0)] (XNum)])
(Skip)])
(Skip)])
(block [
Raise])])
(Skip);
Let 99 (XVar 88);
Let 100 (XVar 89);
Let 101 (XVar 90)];
Let 88 (XVar 99);
Let 89 (XVar 100);
Let 90 (XVar 101);
Store 105 [Sl (BNone) (BNone) (SOne)] (XBin (XBin (XVar 102) (XVar 103)) (XVar 104));
Store 106 [Sl (BNone) (BNone) (SOne)] (XBin (XBin (XBin (XBin (XSel (XVar 22) [Sl (BNone) (BEnd 1) (SOne)]) (XBin (XSel (XVar 10) [Sl (BNone) (BEnd 2) (SOne)]) (XSel (XVar 10) [Sl (BIx (IC 1)) (BEnd 1) (SOne)]))) (XBin (XSel (XVar 22) [Sl (BIx (IC 1)) (BNone) (SOne)]) (XBin (XSel (XVar 10) [Sl (BIx (IC 2)) (BNone) (SOne)]) (XSel (XVar 10) [Sl (BIx (IC 1)) (BEnd 1) (SOne)])))) (XBin (XVar 28) (XBin (XSel (XVar 24) [At (IC 0)]) (XSel (XVar 10) [Sl (BIx (IC 1)) (BEnd 1) (SOne)])))) (XVar 63));
Store 107 [Sl (BNone) (BNone) (SOne)] (XBin (XBin (XBin (XVar 4) (XBin (XBin (XSel (XVar 11) [Sl (BNone) (BEnd 2) (SOne)]) (XSel (XVar 10) [Sl (BNone) (BEnd 2) (SOne)])) (XVar 64))) (XBin (XVar 5) (XBin (XBin (XSel (XVar 11) [Sl (BIx (IC 2)) (BNone) (SOne)]) (XSel (XVar 10) [Sl (BIx (IC 2)) (BNone) (SOne)])) (XVar 64)))) (XVar 63));
For 108 (ISize 67)
(block [
LetInt 109 (IElem 67 (IV 108));
Store 106 [At (IV 109)] (XSel (XVar 83) [At (IV 108)]);
Store 107 [At (IV 109)] (XBin (XBin (XSel (XVar 6) [At (IV 108)]) (XBin (XBin (XSel (XVar 73) [At (IV 108)]) (XSel (XVar 75) [At (IV 108)])) (XSel (XVar 64) [At (IV 109)]))) (XSel (XVar 63) [At (IV 109)]))]);
Let 111 (XBin (XBin (XVar 106) (XVar 107)) (XVar 110));
Let 112 (XVar 111)]).
(** multisim/parts/tes.py 996: Tes.get_diff *)
Definition m_TES : method := mkM "TES" "get_diff"
  [("timestep", 1); ("_T_ext", 2); ("_T_port", 3); ("_T_s", 4); ("_T_s_lid", 5); ("_T_amb", 6); ("ports_all", 7); ("_dm_io", 8); ("dm", 9); ("_dm_top", 10); ("_dm_bot", 11); ("_dm_port", 12); ("res_dm", 13); ("_cp_T", 14); ("_lam_T", 15); ("_rho_T", 16); ("_ny_T", 17); ("_lam_mean", 18); ("_cp_port", 19); ("_lam_port_fld", 20); ("_mcp", 21); ("_rhocp", 22); ("_lam_wll", 23); ("_lam_ins", 24); ("_mcp_wll", 25); ("_ui", 26); ("_alpha_i", 27); ("_alpha_inf", 28); ("_UA_tb", 29); ("_UA_tb_wll", 30); ("_UA_amb_shell", 31); ("_UA_amb_lid", 32); ("_UA_port", 33); ("_UA_port_wll", 34); ("_port_own_idx", 35); ("_port_link_idx", 36); ("grid_spacing", 37); ("_port_gsp", 38); ("_port_subs_gsp", 39); ("_d_i", 40); ("_cell_dist", 41); ("_flow_length", 42); ("_flow_length_lid", 43); ("_r_total", 44); ("_r_ln_wll", 45); ("_r_ln_ins", 46); ("_r_rins", 47); ("_s_wll", 48); ("_s_ins", 49); ("A_cell", 50); ("V_cell", 51); ("_A_shell_i", 52); ("_A_shell_ins", 53); ("_A_p_fld_mean", 54); ("_process_flows", 55); ("_vertical", 56); ("_vertical_lid", 57); ("_lid_top", 58); ("_step_stable", 59); ("part_id", 61); ("_stability_breaches", 62); ("_vN_max_step", 63); ("_max_factor", 65); ("stepnum", 67); ("dT_cond", 68); ("dT_adv", 69); ("dT_total", 70)]
(block [
Let 60 (XVar 59);
Let 64 (XVar 63);
Let 66 (XVar 65);
block [
block [
If (XSel (XVar 55) [At (IC 0)])
(block [
Store 9 [Sl (BNone) (BNone) (SOne)] (XNum);
Let 71 (XCum (XVar 8));
For 72 (ISub (ISize 35) (IC 1))
(block [
Store 9 [Sl (BIx (IElem 35 (IV 72))) (BIx (IElem 35 (IAdd (IV 72) (IC 1)))) (SOne)] (XSel (XVar 71) [At (IV 72)])]);
Store 12 [Sl (BNone) (BNone) (SOne)] (XVar 8);
Store 10 [Sl (BIx (IC 1)) (BNone) (SOne)] (XSel (XVar 9) [Sl (BNone) (BEnd 1) (SOne)]);
Store 11 [Sl (BNone) (BEnd 1) (SOne)] (XSel (XVar 9) [Sl (BNone) (BEnd 1) (SOne)]);
MkMask 73 (XBin (XVar 10) (XNum));
StoreMask 10 73 true (XNum);
MkMask 74 (XBin (XVar 11) (XNum));
StoreMask 11 74 true (XNum);
Let 75 (XRavel (XVar 12));
MkMask 76 (XBin (XVar 75) (XNum));
StoreMask 75 76 true (XNum);
Store 9 [End 1] (XSel (XVar 9) [End 2]);
Store 13 [At (IElem 67 (IC 0))] (XVar 9)])
(Skip);
Let 77 (XNum)];
Store 55 [At (IC 0)] (XVar 77);
block [
block [
Store 14 [Sl (BNone) (BNone) (SOne)] (XBin (XBin (XBin (XBin (XNum) (XBin (XNum) (XVar 2))) (XBin (XNum) (XBin (XVar 2) (XNum)))) (XBin (XNum) (XBin (XVar 2) (XNum)))) (XBin (XNum) (XBin (XVar 2) (XNum))))];
Let 78 (XSel (XVar 2) [Sl (BIx (IC 1)) (BEnd 1) (SOne)]);
block [
Store 15 [Sl (BNone) (BNone) (SOne)] (XBin (XBin (XBin (XNum) (XBin (XNum) (XVar 78))) (XBin (XNum) (XBin (XVar 78) (XNum)))) (XBin (XNum) (XBin (XVar 78) (XNum))))];
Let 79 (XSel (XVar 2) [Sl (BIx (IC 1)) (BEnd 1) (SOne)]);
block [
Store 16 [Sl (BNone) (BNone) (SOne)] (XBin (XBin (XBin (XBin (XNum) (XBin (XNum) (XVar 79))) (XBin (XNum) (XBin (XVar 79) (XNum)))) (XBin (XNum) (XBin (XVar 79) (XNum)))) (XBin (XNum) (XBin (XVar 79) (XNum))))];
Let 80 (XSel (XVar 2) [Sl (BIx (IC 1)) (BEnd 1) (SOne)]);
block [
Store 17 [Sl (BNone) (BNone) (SOne)] (XBin (XBin (XBin (XBin (XNum) (XBin (XNum) (XVar 80))) (XBin (XNum) (XBin (XVar 80) (XNum)))) (XBin (XNum) (XBin (XVar 80) (XNum)))) (XBin (XNum) (XBin (XVar 80) (XNum))))]];
block [
Store 18 [Sl (BNone) (BNone) (SOne)] (XBin (XBin (XBin (XNum) (XSel (XVar 15) [Sl (BNone) (BEnd 1) (SOne)])) (XSel (XVar 15) [Sl (BIx (IC 1)) (BNone) (SOne)])) (XBin (XSel (XVar 15) [Sl (BNone) (BEnd 1) (SOne)]) (XSel (XVar 15) [Sl (BIx (IC 1)) (BNone) (SOne)])))];
Let 81 (XSel (XVar 2) [Sl (BIx (IC 1)) (BEnd 1) (SOne)]);
block [
Let 82 (XBin (XSel (XVar 81) [Sl (BIx (IC 1)) (BNone) (SOne)]) (XSel (XVar 81) [Sl (BNone) (BEnd 1) (SOne)]));
If (XRed false (XBin (XVar 82) (XNum)))
(Skip)
(block [
MkMask 83 (XBin (XVar 82) (XNum));
StoreMask 82 83 true (XNum);
Let 84 (XNum);
LetInt 85 (ISub (ILen 81 0) (IC 1));
Let 86 (XNew [IV 85]);
Let 87 (XSel (XVar 81) [Sl (BIx (IC 1)) (BNone) (SOne)]);
block [
Let 88 (XBin (XBin (XBin (XNum) (XBin (XNum) (XVar 87))) (XBin (XNum) (XBin (XVar 87) (XNum)))) (XBin (XNum) (XBin (XVar 87) (XNum))))];
Let 89 (XVar 88);
Let 90 (XSel (XVar 81) [Sl (BIx (IC 1)) (BNone) (SOne)]);
block [
Let 91 (XBin (XBin (XBin (XNum) (XBin (XNum) (XVar 90))) (XBin (XNum) (XBin (XVar 90) (XNum)))) (XBin (XNum) (XBin (XVar 90) (XNum))))];
Let 92 (XVar 91);
MkMask 93 (XBin (XVar 92) (XNum));
StoreMask 92 93 true (XInt (IC (-1)));
Let 94 (XBin (XVar 40) (XNum));
Let 95 (XBin (XBin (XBin (XBin (XBin (XVar 89) (XNum)) (XBin (XVar 94) (XNum))) (XVar 92)) (XVar 82)) (XBin (XSel (XVar 17) [Sl (BIx (IC 1)) (BNone) (SOne)]) (XNum)));
Let 96 (XBin (XVar 95) (XBin (XBin (XNum) (XBin (XBin (XNum) (XVar 89)) (XBin (XNum) (XNum)))) (XBin (XInt (IC (-20))) (XNum))));
MkMask 97 (XBin (XVar 96) (XNum));
StoreMask 86 97 false (XBin (XNum) (XBin (XMask (XVar 96) 97 false) (XNum)));
StoreMask 86 97 true (XBin (XNum) (XBin (XMask (XVar 96) 97 true) (XBin (XNum) (XNum))));
MkMask 98 (XBin (XVar 86) (XNum));
StoreMask 18 98 true (XBin (XMask (XVar 86) 98 true) (XVar 84))])];
block [
Store 29 [Sl (BIx (IC 1)) (BEnd 1) (SOne)] (XBin (XBin (XBin (XVar 50) (XVar 37)) (XVar 18)) (XVar 30))];
Let 99 (XSel (XVar 2) [Sl (BIx (IC 1)) (BEnd 1) (SOne)]);
Let 100 (XSel (XVar 6) [At (IC 0)]);
block [
Store 4 [Sl (BNone) (BNone) (SOne)] (XBin (XVar 100) (XBin (XBin (XBin (XVar 99) (XVar 100)) (XVar 31)) (XBin (XVar 28) (XVar 53))))];
Let 101 (XSel (XVar 2) [Sl (BIx (IC 1)) (BEnd 1) (SOne)]);
block [
Let 102 (XLike (XVar 16));
Let 103 (XLike (XVar 101));
Let 104 (XLike (XVar 16));
Let 105 (XBin (XVar 9) (XBin (XVar 16) (XVar 50)));
block [
Store 102 [Sl (BNone) (BNone) (SOne)] (XBin (XBin (XVar 105) (XVar 40)) (XVar 17))];
block [
Store 103 [Sl (BNone) (BNone) (SOne)] (XBin (XBin (XBin (XNum) (XBin (XNum) (XVar 101))) (XBin (XNum) (XBin (XVar 101) (XNum)))) (XBin (XNum) (XBin (XVar 101) (XNum))))];
Let 106 (XBin (XVar 102) (XVar 103));
If (XBin (XSel (XVar 9) [At (IC 0)]) (XNum))
(block [
Let 107 (XSel (XVar 41) [Sl (BNone) (BNone) (SRev)])])
(block [
Let 107 (XSel (XVar 41) [Sl (BNone) (BNone) (SOne)])]);
MkMask 108 (XBin (XVar 102) (XNum));
StoreMask 104 108 false (XBin (XBin (XNum) (XBin (XBin (XBin (XNum) (XBin (XBin (XBin (XMask (XVar 106) 108 false) (XVar 40)) (XMask (XVar 107) 108 false)) (XBin (XNum) (XNum)))) (XNum)) (XNum))) (XBin (XNum) (XNum)));
Let 109 (XBin (XBin (XBin (XNum) (XMask (XVar 102) 108 true)) (XNum)) (XInt (IC (-2))));
StoreMask 104 108 true (XBin (XBin (XBin (XBin (XVar 109) (XNum)) (XMask (XVar 106) 108 true)) (XBin (XNum) (XBin (XBin (XNum) (XBin (XBin (XMask (XVar 103) 108 true) (XBin (XNum) (XNum))) (XNum))) (XBin (XBin (XVar 109) (XNum)) (XNum))))) (XBin (XNum) (XBin (XBin (XBin (XVar 40) (XMask (XVar 107) 108 true)) (XBin (XNum) (XNum))) (XNum))));
Store 27 [Sl (BNone) (BNone) (SOne)] (XBin (XBin (XVar 104) (XVar 15)) (XVar 40))];
Let 110 (XSel (XVar 6) [At (IC 0)]);
block [
Let 111 (XNum);
Let 112 (XNum);
Let 113 (XBin (XBin (XVar 110) (XVar 4)) (XNum));
Let 114 (XLike (XVar 113));
Let 115 (XLike (XVar 113));
block [
Store 114 [Sl (BNone) (BNone) (SOne)] (XBin (XBin (XNum) (XBin (XNum) (XVar 113))) (XBin (XNum) (XBin (XVar 113) (XNum))))];
block [
Store 115 [Sl (BNone) (BNone) (SOne)] (XBin (XBin (XNum) (XBin (XNum) (XVar 113))) (XBin (XNum) (XBin (XVar 113) (XNum))))];
Let 116 (XBin (XBin (XBin (XBin (XBin (XVar 4) (XVar 110)) (XNum)) (XBin (XVar 42) (XNum))) (XVar 112)) (XBin (XBin (XVar 110) (XVar 111)) (XBin (XVar 114) (XNum))));
If (XVar 56)
(block [
Let 117 (XNum);
Let 118 (XBin (XBin (XBin (XNum) (XBin (XNum) (XBin (XBin (XVar 116) (XVar 117)) (XBin (XNum) (XNum))))) (XNum)) (XBin (XBin (XNum) (XVar 42)) (XBin (XNum) (XVar 44))))])
(block [
Let 117 (XNum);
Let 118 (XBin (XBin (XNum) (XBin (XNum) (XBin (XBin (XVar 116) (XVar 117)) (XBin (XNum) (XNum))))) (XNum))]);
Store 28 [Sl (BNone) (BNone) (SOne)] (XBin (XBin (XVar 118) (XVar 115)) (XVar 42))];
Let 119 (XSel (XVar 6) [At (IC 0)]);
block [
If (XVar 57)
(block [
block [
Let 121 (XNum);
Let 122 (XNum);
Let 123 (XBin (XBin (XVar 119) (XVar 5)) (XNum));
Let 124 (XLike (XVar 123));
Let 125 (XLike (XVar 123));
block [
Store 124 [Sl (BNone) (BNone) (SOne)] (XBin (XBin (XNum) (XBin (XNum) (XVar 123))) (XBin (XNum) (XBin (XVar 123) (XNum))))];
block [
Store 125 [Sl (BNone) (BNone) (SOne)] (XBin (XBin (XNum) (XBin (XNum) (XVar 123))) (XBin (XNum) (XBin (XVar 123) (XNum))))];
Let 126 (XNum);
block [
Let 127 (XBin (XBin (XBin (XBin (XBin (XVar 5) (XVar 119)) (XNum)) (XBin (XVar 43) (XNum))) (XVar 122)) (XBin (XBin (XVar 119) (XVar 121)) (XBin (XVar 124) (XNum))))];
Let 128 (XBin (XBin (XNum) (XBin (XNum) (XBin (XBin (XVar 127) (XVar 126)) (XBin (XNum) (XNum))))) (XNum));
Let 129 (XBin (XBin (XVar 128) (XVar 125)) (XVar 43))];
Let 120 (XVar 129)])
(block [
block [
Let 130 (XNum);
Let 131 (XNum);
Let 132 (XBin (XBin (XVar 119) (XVar 5)) (XNum));
block [
Let 133 (XBin (XBin (XNum) (XBin (XNum) (XVar 132))) (XBin (XNum) (XBin (XVar 132) (XNum))))];
Let 134 (XVar 133);
block [
Let 135 (XBin (XBin (XNum) (XBin (XNum) (XVar 132))) (XBin (XNum) (XBin (XVar 132) (XNum))))];
Let 136 (XVar 135);
Let 137 (XLike (XVar 132));
block [
Let 138 (XBin (XBin (XBin (XBin (XBin (XVar 5) (XVar 119)) (XNum)) (XBin (XVar 43) (XNum))) (XVar 131)) (XBin (XBin (XVar 119) (XVar 130)) (XBin (XVar 134) (XNum))))];
Let 139 (XVar 138);
For 140 (ILen 5 0)
(block [
If (XBin (XBin (XSel (XVar 58) [At (IV 140)]) (XBin (XSel (XVar 5) [At (IV 140)]) (XVar 119))) (XBin (XSel (XVar 58) [At (IV 140)]) (XBin (XSel (XVar 5) [At (IV 140)]) (XVar 119))))
(block [
Let 141 (XNum);
Let 142 (XBin (XSel (XVar 139) [At (IV 140)]) (XVar 141));
If (XBin (XVar 142) (XNum))
(block [
Store 137 [At (IV 140)] (XBin (XNum) (XBin (XVar 142) (XBin (XNum) (XNum))))])
(block [
Store 137 [At (IV 140)] (XBin (XNum) (XBin (XVar 142) (XBin (XNum) (XNum))))])])
(block [
Let 141 (XNum);
Store 137 [At (IV 140)] (XBin (XNum) (XBin (XBin (XSel (XVar 139) [At (IV 140)]) (XVar 141)) (XBin (XNum) (XNum))))])]);
Let 143 (XBin (XBin (XVar 137) (XVar 136)) (XVar 43))];
Let 120 (XVar 143)])];
Let 144 (XVar 120);
block [
Store 31 [Sl (BNone) (BNone) (SOne)] (XBin (XVar 52) (XBin (XBin (XBin (XBin (XNum) (XVar 27)) (XBin (XVar 45) (XVar 23))) (XBin (XVar 46) (XVar 24))) (XBin (XVar 47) (XVar 28))))];
Let 145 (XSel (XVar 27) [Sl (BNone) (BNone) (SBy (ISub (ISize 27) (IC 1)))]);
block [
Let 146 (XBin (XVar 50) (XBin (XBin (XBin (XBin (XNum) (XVar 145)) (XBin (XVar 48) (XVar 23))) (XBin (XVar 49) (XVar 24))) (XBin (XNum) (XVar 144))))];
Store 32 [Sl (BNone) (BNone) (SOne)] (XVar 146);
block [
Store 22 [Sl (BNone) (BNone) (SOne)] (XBin (XVar 16) (XSel (XVar 14) [Sl (BIx (IC 1)) (BEnd 1) (SOne)]));
Store 21 [Sl (BNone) (BNone) (SOne)] (XBin (XBin (XVar 51) (XVar 22)) (XVar 25));
Store 26 [Sl (BNone) (BNone) (SOne)] (XBin (XSel (XVar 14) [Sl (BIx (IC 1)) (BEnd 1) (SOne)]) (XSel (XVar 2) [Sl (BIx (IC 1)) (BEnd 1) (SOne)]))];
Let 147 (XSel (XVar 2) [Sl (BIx (IC 1)) (BEnd 1) (SOne)]);
block [
Let 148 (XLike (XVar 35));
For 149 (ISize 36)
(block [
Let 150 (XSel (XVar 7) [At (IElem 36 (IV 149))]);
LetInt 151 (IElem 35 (IV 149));
StoreFlat 3 (IV 149) (XVar 150);
block [
Let 152 (XBin (XBin (XBin (XBin (XNum) (XBin (XNum) (XVar 150))) (XBin (XNum) (XBin (XVar 150) (XNum)))) (XBin (XNum) (XBin (XVar 150) (XNum)))) (XBin (XNum) (XBin (XVar 150) (XNum))))];
StoreFlat 19 (IV 149) (XVar 152);
block [
Let 153 (XBin (XBin (XBin (XNum) (XBin (XNum) (XVar 150))) (XBin (XNum) (XBin (XVar 150) (XNum)))) (XBin (XNum) (XBin (XVar 150) (XNum))))];
StoreFlat 20 (IV 149) (XVar 153);
StoreFlat 33 (IV 149) (XBin (XBin (XSel (XVar 54) [At (IV 149)]) (XBin (XBin (XSel (XVar 38) [At (IV 149)]) (XBin (XNum) (XSel (XVar 20) [At (IV 149)]))) (XBin (XVar 37) (XBin (XNum) (XFlat (XVar 15) (IV 151)))))) (XSel (XVar 34) [At (IV 149)]));
StoreFlat 148 (IV 149) (XBin (XBin (XFlat (XVar 33) (IV 149)) (XBin (XVar 150) (XFlat (XVar 147) (IV 151)))) (XFlat (XVar 21) (IV 151)))]);
Let 154 (XVar 148)];
Let 155 (XVar 154);
Let 156 (XVar 62);
block [
Let 157 (XNew [IC 3]);
Store 157 [At (IC 0)] (XBin (XBin (XRed true (XBin (XSel (XVar 29) [Sl (BIx (IC 1)) (BEnd 1) (SOne)]) (XSel (XVar 22) [Sl (BIx (IC 1)) (BNone) (SOne)]))) (XVar 1)) (XBin (XVar 50) (XVar 37)));
Store 157 [At (IC 1)] (XBin (XBin (XRed true (XBin (XVar 33) (XBin (XVar 54) (XVar 39)))) (XVar 1)) (XRed true (XVar 22)));
Store 157 [At (IC 2)] (XBin (XBin (XRed true (XBin (XVar 31) (XVar 22))) (XVar 1)) (XBin (XVar 53) (XVar 44)));
Let 158 (XRed true (XVar 157));
Let 159 (XBin (XVar 51) (XRed true (XVar 16)));
Let 160 (XBin (XBin (XBin (XBin (XRed true (XVar 10)) (XRed true (XVar 11))) (XRed true (XVar 12))) (XVar 1)) (XVar 159));
Let 161 (XBin (XVar 158) (XNum));
Let 162 (XBin (XVar 160) (XNum));
Let 163 (XBin (XVar 161) (XVar 162));
If (XBin (XVar 163) (XNum))
(block [
If (XNum)
(block [
Store 60 [At (IC 0)] (XNum);
Store 156 [] (XNum);
Let 164 (XBin (XBin (XVar 1) (XVar 163)) (XNum));
If (XBin (XSel (XVar 64) [At (IC 0)]) (XVar 164))
(block [
Store 64 [At (IC 0)] (XVar 164)])
(Skip);
If (XBin (XSel (XVar 66) [At (IC 0)]) (XNum))
(block [
Store 66 [At (IC 0)] (XBin (XSel (XVar 66) [At (IC 0)]) (XNum));
If (XBin (XSel (XVar 66) [At (IC 0)]) (XNum))
(block [
Store 66 [At (IC 0)] (XNum)])
(Skip)])
(Skip)])
(block [
Raise])])
(Skip);
Let 165 (XVar 60);
Let 166 (XVar 64);
Let 167 (XVar 66)];
Let 60 (XVar 165);
Let 64 (XVar 166);
Let 66 (XVar 167);
block [
Store 68 [Sl (BNone) (BNone) (SOne)] (XBin (XBin (XBin (XBin (XSel (XVar 29) [Sl (BNone) (BEnd 1) (SOne)]) (XBin (XSel (XVar 2) [Sl (BNone) (BEnd 2) (SOne)]) (XSel (XVar 2) [Sl (BIx (IC 1)) (BEnd 1) (SOne)]))) (XBin (XSel (XVar 29) [Sl (BIx (IC 1)) (BNone) (SOne)]) (XBin (XSel (XVar 2) [Sl (BIx (IC 2)) (BNone) (SOne)]) (XSel (XVar 2) [Sl (BIx (IC 1)) (BEnd 1) (SOne)])))) (XBin (XVar 31) (XBin (XSel (XVar 6) [At (IC 0)]) (XSel (XVar 2) [Sl (BIx (IC 1)) (BEnd 1) (SOne)])))) (XVar 21));
Store 68 [At (IC 0)] (XBin (XBin (XSel (XVar 32) [At (IC 0)]) (XBin (XSel (XVar 6) [At (IC 0)]) (XSel (XVar 2) [At (IC 1)]))) (XSel (XVar 21) [At (IC 0)]));
Store 68 [End 1] (XBin (XBin (XSel (XVar 32) [End 1]) (XBin (XSel (XVar 6) [At (IC 0)]) (XSel (XVar 2) [End 2]))) (XSel (XVar 21) [End 1]));
Store 69 [Sl (BNone) (BNone) (SOne)] (XBin (XBin (XBin (XVar 10) (XBin (XBin (XSel (XVar 14) [Sl (BNone) (BEnd 2) (SOne)]) (XSel (XVar 2) [Sl (BNone) (BEnd 2) (SOne)])) (XVar 26))) (XBin (XVar 11) (XBin (XBin (XSel (XVar 14) [Sl (BIx (IC 2)) (BNone) (SOne)]) (XSel (XVar 2) [Sl (BIx (IC 2)) (BNone) (SOne)])) (XVar 26)))) (XVar 21))];
For 168 (ISize 3)
(block [
LetInt 169 (IElem 35 (IV 168));
Store 68 [At (IV 169)] (XBin (XBin (XSel (XVar 33) [At (IV 168)]) (XBin (XSel (XVar 3) [At (IV 168)]) (XSel (XVar 2) [At (IAdd (IV 169) (IC 1))]))) (XSel (XVar 21) [At (IV 169)]));
Store 69 [At (IV 169)] (XBin (XBin (XFlat (XVar 12) (IV 168)) (XBin (XBin (XSel (XVar 19) [At (IV 168)]) (XSel (XVar 3) [At (IV 168)])) (XSel (XVar 26) [At (IV 169)]))) (XSel (XVar 21) [At (IV 169)]))]);
Store 70 [Sl (BNone) (BNone) (SOne)] (XBin (XVar 68) (XVar 69));
Let 170 (XVar 70);
Let 171 (XVar 55);
Let 172 (XVar 60);
Let 173 (XVar 64);
Let 174 (XVar 66);
Let 175 (XVar 144)];
Let 176 (XVar 70)]).
(** multisim/parts/hex_num.py 1312: HexNum.get_diff *)
Definition m_HexNum : method := mkM "HexNum" "get_diff"
  [("timestep", 1); ("_T_ext", 2); ("_T_port", 3); ("_T_amb", 4); ("ports_all", 5); ("_dm_io", 6); ("_dm_top", 7); ("_dm_bot", 8); ("_dm_port", 9); ("res_dm", 10); ("_cp_T", 11); ("_lam_fld", 12); ("_rho_T", 13); ("_ny_T", 14); ("_lam_mean", 15); ("_cp_port", 16); ("_lam_port_fld", 17); ("_mcp", 18); ("_rhocp", 19); ("_cp_wll", 20); ("_lam_wll", 21); ("_ui", 22); ("_alpha_i", 23); ("_UA_dim1", 24); ("_UA_dim2", 25); ("_UA_dim1_wll", 26); ("_UA_port", 27); ("_UA_port_wll", 28); ("_port_own_idx", 29); ("_port_link_idx", 30); ("grid_spacing", 31); ("_port_gsp", 32); ("_port_subs_gsp", 33); ("_d_h", 34); ("_s_plate", 35); ("_cell_dist", 36); ("_dist_min", 37); ("A_channel", 38); ("V_cell_fld", 39); ("A_plate_eff", 40); ("_A_p_fld_mean", 41); ("_channel_divisor", 42); ("_corr_Re", 43); ("_process_flows", 44); ("_step_stable", 45); ("part_id", 46); ("_stability_breaches", 47); ("_vN_max_step", 48); ("_max_factor", 49); ("stepnum", 50); ("dT_cond", 51); ("dT_adv", 52); ("dT_total", 53)]
(block [
block [
Let 54 (XSel (XVar 2) [Sl (BIx (IC 1)) (BEnd 1) (SOne); At (IC 1)]);
Let 55 (XSel (XVar 2) [Sl (BIx (IC 1)) (BEnd 1) (SOne); At (IC 3)]);
Let 56 (XSel (XVar 6) [Sl (BNone) (BIx (IC 1)) (SOne)]);
Let 57 (XSel (XVar 6) [Sl (BIx (IC 1)) (BNone) (SOne)]);
block [
If (XSel (XVar 44) [At (IC 0)])
(block [
For 58 (ISize 6)
(block [
If (XBin (XSel (XVar 6) [At (IV 58)]) (XNum))
(block [
Store 7 [Sl (BIx (IC 1)) (BNone) (SOne); At (IV 58)] (XSel (XVar 6) [At (IV 58)]);
Store 8 [Sl (BNone) (BEnd 1) (SOne); At (IV 58)] (XNum);
Store 9 [At (IMul (IV 58) (IC 2))] (XSel (XVar 6) [At (IV 58)]);
Store 9 [At (IAdd (IMul (IV 58) (IC 2)) (IC 1))] (XNum)])
(block [
Store 8 [Sl (BNone) (BEnd 1) (SOne); At (IV 58)] (XSel (XVar 6) [At (IV 58)]);
Store 7 [Sl (BIx (IC 1)) (BNone) (SOne); At (IV 58)] (XNum);
Store 9 [At (IMul (IV 58) (IC 2))] (XNum);
Store 9 [At (IAdd (IMul (IV 58) (IC 2)) (IC 1))] (XSel (XVar 6) [At (IV 58)])])]);
Store 10 [At (IElem 50 (IC 0))] (XVar 6)])
(Skip);
Let 59 (XNum)];
Store 44 [At (IC 0)] (XVar 59);
Let 60 (XBin (XVar 6) (XVar 42));
Let 61 (XSel (XVar 2) [Sl (BNone) (BNone) (SOne); Sl (BIx (IC 1)) (BNone) (SBy (IC 2))]);
block [
block [
Store 11 [Sl (BNone) (BNone) (SOne)] (XBin (XBin (XBin (XBin (XNum) (XBin (XNum) (XVar 61))) (XBin (XNum) (XBin (XVar 61) (XNum)))) (XBin (XNum) (XBin (XVar 61) (XNum)))) (XBin (XNum) (XBin (XVar 61) (XNum))))];
Let 62 (XSel (XVar 61) [Sl (BIx (IC 1)) (BEnd 1) (SOne)]);
block [
Store 12 [Sl (BNone) (BNone) (SOne)] (XBin (XBin (XBin (XNum) (XBin (XNum) (XVar 62))) (XBin (XNum) (XBin (XVar 62) (XNum)))) (XBin (XNum) (XBin (XVar 62) (XNum))))];
Let 63 (XSel (XVar 61) [Sl (BIx (IC 1)) (BEnd 1) (SOne)]);
block [
Store 13 [Sl (BNone) (BNone) (SOne)] (XBin (XBin (XBin (XBin (XNum) (XBin (XNum) (XVar 63))) (XBin (XNum) (XBin (XVar 63) (XNum)))) (XBin (XNum) (XBin (XVar 63) (XNum)))) (XBin (XNum) (XBin (XVar 63) (XNum))))];
Let 64 (XSel (XVar 61) [Sl (BIx (IC 1)) (BEnd 1) (SOne)]);
block [
Store 14 [Sl (BNone) (BNone) (SOne)] (XBin (XBin (XBin (XBin (XNum) (XBin (XNum) (XVar 64))) (XBin (XNum) (XBin (XVar 64) (XNum)))) (XBin (XNum) (XBin (XVar 64) (XNum)))) (XBin (XNum) (XBin (XVar 64) (XNum))))]];
block [
Store 15 [Sl (BNone) (BNone) (SOne)] (XBin (XBin (XBin (XNum) (XSel (XVar 12) [Sl (BNone) (BEnd 1) (SOne)])) (XSel (XVar 12) [Sl (BIx (IC 1)) (BNone) (SOne)])) (XBin (XSel (XVar 12) [Sl (BNone) (BEnd 1) (SOne)]) (XSel (XVar 12) [Sl (BIx (IC 1)) (BNone) (SOne)])))];
Let 65 (XSel (XVar 24) [Sl (BNone) (BNone) (SOne); Sl (BNone) (BNone) (SBy (IC 2))]);
block [
Store 65 [Sl (BIx (IC 1)) (BEnd 1) (SOne)] (XBin (XBin (XVar 38) (XVar 31)) (XVar 15))];
Let 66 (XSel (XVar 24) [Sl (BNone) (BNone) (SOne); At (IC 1)]);
block [
Store 66 [Sl (BIx (IC 1)) (BEnd 1) (SOne)] (XVar 26)];
Let 67 (XBin (XVar 56) (XSel (XVar 42) [At (IC 0)]));
Let 68 (XSel (XVar 13) [Sl (BNone) (BNone) (SOne); At (IC 0)]);
Let 69 (XSel (XVar 14) [Sl (BNone) (BNone) (SOne); At (IC 0)]);
Let 70 (XSel (XVar 12) [Sl (BNone) (BNone) (SOne); At (IC 0)]);
Let 71 (XSel (XVar 23) [Sl (BNone) (BNone) (SOne); At (IC 0)]);
block [
Let 72 (XLike (XVar 71));
Let 73 (XLike (XVar 71));
Let 74 (XBin (XVar 67) (XBin (XVar 68) (XVar 38)));
block [
Store 72 [Sl (BNone) (BNone) (SOne)] (XBin (XBin (XVar 74) (XVar 34)) (XVar 69))];
block [
Let 75 (XBin (XBin (XBin (XNum) (XBin (XNum) (XVar 54))) (XBin (XNum) (XBin (XVar 54) (XNum)))) (XBin (XNum) (XBin (XVar 54) (XNum))))];
Let 76 (XVar 75);
block [
Let 77 (XBin (XBin (XBin (XNum) (XBin (XNum) (XVar 54))) (XBin (XNum) (XBin (XVar 54) (XNum)))) (XBin (XNum) (XBin (XVar 54) (XNum))))];
Let 78 (XVar 77);
Store 72 [] (XVar 43);
Let 79 (XBin (XBin (XVar 76) (XVar 78)) (XNum));
Let 80 (XBin (XVar 72) (XVar 76));
MkMask 81 (XBin (XVar 72) (XNum));
Let 82 (XBin (XBin (XMask (XVar 80) 81 false) (XVar 34)) (XMask (XVar 36) 81 false));
StoreMask 73 81 false (XBin (XBin (XBin (XNum) (XBin (XBin (XBin (XNum) (XBin (XVar 82) (XBin (XNum) (XNum)))) (XNum)) (XNum))) (XBin (XBin (XBin (XBin (XNum) (XBin (XNum) (XBin (XNum) (XMask (XVar 76) 81 false)))) (XBin (XNum) (XNum))) (XBin (XVar 82) (XNum))) (XNum))) (XBin (XNum) (XNum)));
Let 83 (XBin (XBin (XBin (XNum) (XMask (XVar 72) 81 true)) (XNum)) (XInt (IC (-2))));
StoreMask 73 81 true (XBin (XBin (XBin (XBin (XVar 83) (XNum)) (XMask (XVar 80) 81 true)) (XBin (XNum) (XBin (XBin (XNum) (XBin (XBin (XMask (XVar 76) 81 true) (XBin (XNum) (XNum))) (XNum))) (XBin (XBin (XVar 83) (XNum)) (XNum))))) (XBin (XNum) (XBin (XBin (XVar 34) (XMask (XVar 36) 81 true)) (XBin (XNum) (XNum)))));
Store 71 [Sl (BNone) (BNone) (SOne)] (XBin (XBin (XBin (XVar 73) (XVar 79)) (XVar 70)) (XVar 34))];
Let 84 (XBin (XVar 57) (XSel (XVar 42) [At (IC 1)]));
Let 85 (XSel (XVar 13) [Sl (BNone) (BNone) (SOne); At (IC 1)]);
Let 86 (XSel (XVar 14) [Sl (BNone) (BNone) (SOne); At (IC 1)]);
Let 87 (XSel (XVar 12) [Sl (BNone) (BNone) (SOne); At (IC 1)]);
Let 88 (XSel (XVar 23) [Sl (BNone) (BNone) (SOne); At (IC 1)]);
block [
Let 89 (XLike (XVar 88));
Let 90 (XLike (XVar 88));
Let 91 (XBin (XVar 84) (XBin (XVar 85) (XVar 38)));
block [
Store 89 [Sl (BNone) (BNone) (SOne)] (XBin (XBin (XVar 91) (XVar 34)) (XVar 86))];
block [
Let 92 (XBin (XBin (XBin (XNum) (XBin (XNum) (XVar 55))) (XBin (XNum) (XBin (XVar 55) (XNum)))) (XBin (XNum) (XBin (XVar 55) (XNum))))];
Let 93 (XVar 92);
block [
Let 94 (XBin (XBin (XBin (XNum) (XBin (XNum) (XVar 55))) (XBin (XNum) (XBin (XVar 55) (XNum)))) (XBin (XNum) (XBin (XVar 55) (XNum))))];
Let 95 (XVar 94);
Store 89 [] (XVar 43);
Let 96 (XBin (XBin (XVar 93) (XVar 95)) (XNum));
Let 97 (XBin (XVar 89) (XVar 93));
MkMask 98 (XBin (XVar 89) (XNum));
Let 99 (XBin (XBin (XMask (XVar 97) 98 false) (XVar 34)) (XMask (XVar 36) 98 false));
StoreMask 90 98 false (XBin (XBin (XBin (XNum) (XBin (XBin (XBin (XNum) (XBin (XVar 99) (XBin (XNum) (XNum)))) (XNum)) (XNum))) (XBin (XBin (XBin (XBin (XNum) (XBin (XNum) (XBin (XNum) (XMask (XVar 93) 98 false)))) (XBin (XNum) (XNum))) (XBin (XVar 99) (XNum))) (XNum))) (XBin (XNum) (XNum)));
Let 100 (XBin (XBin (XBin (XNum) (XMask (XVar 89) 98 true)) (XNum)) (XInt (IC (-2))));
StoreMask 90 98 true (XBin (XBin (XBin (XBin (XVar 100) (XNum)) (XMask (XVar 97) 98 true)) (XBin (XNum) (XBin (XBin (XNum) (XBin (XBin (XMask (XVar 93) 98 true) (XBin (XNum) (XNum))) (XNum))) (XBin (XBin (XVar 100) (XNum)) (XNum))))) (XBin (XNum) (XBin (XBin (XVar 34) (XMask (XVar 36) 98 true)) (XBin (XNum) (XNum)))));
Store 88 [Sl (BNone) (BNone) (SOne)] (XBin (XBin (XBin (XVar 90) (XVar 96)) (XVar 87)) (XVar 34))];
Let 101 (XBin (XVar 35) (XNum));
block [
Let 102 (XBin (XVar 40) (XBin (XBin (XNum) (XVar 23)) (XBin (XVar 101) (XVar 21))))];
Store 25 [Sl (BNone) (BNone) (SOne); Sl (BIx (IC 1)) (BIx (IC 3)) (SOne)] (XVar 102);
Let 103 (XSel (XVar 2) [Sl (BNone) (BNone) (SOne); Sl (BIx (IC 1)) (BNone) (SBy (IC 2))]);
Let 104 (XSel (XVar 19) [Sl (BNone) (BNone) (SOne); Sl (BNone) (BNone) (SBy (IC 2))]);
Let 105 (XSel (XVar 18) [Sl (BNone) (BNone) (SOne); Sl (BNone) (BNone) (SBy (IC 2))]);
Let 106 (XSel (XVar 22) [Sl (BNone) (BNone) (SOne); Sl (BNone) (BNone) (SBy (IC 2))]);
block [
Store 104 [Sl (BNone) (BNone) (SOne)] (XBin (XVar 13) (XSel (XVar 11) [Sl (BIx (IC 1)) (BEnd 1) (SOne)]));
Store 105 [Sl (BNone) (BNone) (SOne)] (XBin (XVar 39) (XVar 104));
Store 106 [Sl (BNone) (BNone) (SOne)] (XBin (XSel (XVar 11) [Sl (BIx (IC 1)) (BEnd 1) (SOne)]) (XSel (XVar 103) [Sl (BIx (IC 1)) (BEnd 1) (SOne)]))];
Let 107 (XSel (XVar 2) [Sl (BIx (IC 1)) (BEnd 1) (SOne); At (IC 2)]);
Let 108 (XSel (XVar 22) [Sl (BNone) (BNone) (SOne); At (IC 1)]);
block [
Store 108 [Sl (BNone) (BNone) (SOne)] (XBin (XVar 20) (XVar 107))];
Let 109 (XSel (XVar 2) [Sl (BIx (IC 1)) (BEnd 1) (SOne); Sl (BIx (IC 1)) (BEnd 1) (SOne)]);
block [
Let 110 (XLike (XVar 29));
For 111 (ISize 30)
(block [
Let 112 (XSel (XVar 5) [At (IElem 30 (IV 111))]);
LetInt 113 (IElem 29 (IV 111));
StoreFlat 3 (IV 111) (XVar 112);
block [
Let 114 (XBin (XBin (XBin (XBin (XNum) (XBin (XNum) (XVar 112))) (XBin (XNum) (XBin (XVar 112) (XNum)))) (XBin (XNum) (XBin (XVar 112) (XNum)))) (XBin (XNum) (XBin (XVar 112) (XNum))))];
StoreFlat 16 (IV 111) (XVar 114);
block [
Let 115 (XBin (XBin (XBin (XNum) (XBin (XNum) (XVar 112))) (XBin (XNum) (XBin (XVar 112) (XNum)))) (XBin (XNum) (XBin (XVar 112) (XNum))))];
StoreFlat 17 (IV 111) (XVar 115);
StoreFlat 27 (IV 111) (XBin (XBin (XSel (XVar 41) [At (IV 111)]) (XBin (XBin (XSel (XVar 32) [At (IV 111)]) (XBin (XNum) (XSel (XVar 17) [At (IV 111)]))) (XBin (XVar 31) (XBin (XNum) (XFlat (XVar 12) (IV 113)))))) (XSel (XVar 28) [At (IV 111)]));
StoreFlat 110 (IV 111) (XBin (XBin (XFlat (XVar 27) (IV 111)) (XBin (XVar 112) (XFlat (XVar 109) (IV 113)))) (XFlat (XVar 18) (IV 113)))]);
Let 116 (XVar 110)];
Let 117 (XVar 116);
Let 118 (XVar 47);
block [
Let 119 (XNew [IC 3]);
Let 120 (XRed true (XVar 19));
Store 119 [At (IC 0)] (XBin (XBin (XBin (XRed true (XVar 24)) (XVar 120)) (XVar 1)) (XBin (XVar 38) (XVar 31)));
Store 119 [At (IC 1)] (XBin (XBin (XBin (XRed true (XVar 25)) (XVar 120)) (XVar 1)) (XBin (XVar 40) (XVar 31)));
Store 119 [At (IC 2)] (XBin (XBin (XRed true (XBin (XVar 27) (XBin (XVar 41) (XVar 33)))) (XVar 120)) (XVar 1));
Let 121 (XRed true (XVar 119));
Let 122 (XBin (XVar 39) (XRed true (XVar 13)));
Let 123 (XBin (XBin (XRed true (XVar 60)) (XVar 1)) (XVar 122));
Let 124 (XBin (XVar 121) (XNum));
Let 125 (XBin (XVar 123) (XNum));
Let 126 (XBin (XVar 124) (XVar 125));
If (XBin (XVar 126) (XNum))
(block [
If (XNum)
(block [
Store 45 [At (IC 0)] (XNum);
Store 118 [] (XNum);
Let 127 (XBin (XBin (XVar 1) (XVar 126)) (XNum));
If (XBin (XSel (XVar 48) [At (IC 0)]) (XVar 127))
(block [
Store 48 [At (IC 0)] (XVar 127)])
(Skip);
If (XBin (XSel (XVar 49) [At (IC 0)]) (XNum))
(block [
Store 49 [At (IC 0)] (XBin (XSel (XVar 49) [At (IC 0)]) (XNum));
If (XBin (XSel (XVar 49) [At (IC 0)]) (XNum))
(block [
Store 49 [At (IC 0)] (XNum)])
(Skip)])
(Skip)])
(block [
Raise])])
(Skip);
Let 128 (XVar 45);
Let 129 (XVar 48);
Let 130 (XVar 49)];
Let 131 (XVar 128);
Let 132 (XVar 129);
Let 133 (XVar 130);
Let 134 (XNum);
Store 51 [Sl (BNone) (BNone) (SOne)] (XBin (XBin (XBin (XBin (XBin (XBin (XSel (XVar 24) [Sl (BNone) (BEnd 1) (SOne)]) (XBin (XSel (XVar 2) [Sl (BNone) (BEnd 2) (SOne); Sl (BIx (IC 1)) (BEnd 1) (SOne)]) (XSel (XVar 2) [Sl (BIx (IC 1)) (BEnd 1) (SOne); Sl (BIx (IC 1)) (BEnd 1) (SOne)]))) (XBin (XSel (XVar 24) [Sl (BIx (IC 1)) (BNone) (SOne)]) (XBin (XSel (XVar 2) [Sl (BIx (IC 2)) (BNone) (SOne); Sl (BIx (IC 1)) (BEnd 1) (SOne)]) (XSel (XVar 2) [Sl (BIx (IC 1)) (BEnd 1) (SOne); Sl (BIx (IC 1)) (BEnd 1) (SOne)])))) (XBin (XSel (XVar 25) [Sl (BNone) (BNone) (SOne); Sl (BNone) (BEnd 1) (SOne)]) (XBin (XSel (XVar 2) [Sl (BIx (IC 1)) (BEnd 1) (SOne); Sl (BNone) (BEnd 2) (SOne)]) (XSel (XVar 2) [Sl (BIx (IC 1)) (BEnd 1) (SOne); Sl (BIx (IC 1)) (BEnd 1) (SOne)])))) (XBin (XSel (XVar 25) [Sl (BNone) (BNone) (SOne); Sl (BIx (IC 1)) (BNone) (SOne)]) (XBin (XSel (XVar 2) [Sl (BIx (IC 1)) (BEnd 1) (SOne); Sl (BIx (IC 2)) (BNone) (SOne)]) (XSel (XVar 2) [Sl (BIx (IC 1)) (BEnd 1) (SOne); Sl (BIx (IC 1)) (BEnd 1) (SOne)])))) (XBin (XVar 134) (XBin (XVar 4) (XSel (XVar 2) [Sl (BIx (IC 1)) (BEnd 1) (SOne); Sl (BIx (IC 1)) (BEnd 1) (SOne)])))) (XVar 18));
Store 52 [Sl (BNone) (BNone) (SOne); Sl (BNone) (BNone) (SBy (IC 2))] (XBin (XBin (XBin (XVar 7) (XBin (XBin (XSel (XVar 11) [Sl (BNone) (BEnd 2) (SOne)]) (XSel (XVar 2) [Sl (BNone) (BEnd 2) (SOne); Sl (BIx (IC 1)) (BNone) (SBy (IC 2))])) (XSel (XVar 22) [Sl (BNone) (BNone) (SOne); Sl (BNone) (BNone) (SBy (IC 2))]))) (XBin (XVar 8) (XBin (XBin (XSel (XVar 11) [Sl (BIx (IC 2)) (BNone) (SOne)]) (XSel (XVar 2) [Sl (BIx (IC 2)) (BNone) (SOne); Sl (BIx (IC 1)) (BNone) (SBy (IC 2))])) (XSel (XVar 22) [Sl (BNone) (BNone) (SOne); Sl (BNone) (BNone) (SBy (IC 2))])))) (XSel (XVar 18) [Sl (BNone) (BNone) (SOne); Sl (BNone) (BNone) (SBy (IC 2))]));
For 135 (ISize 29)
(block [
LetInt 136 (IElem 29 (IV 135));
StoreFlat 51 (IV 136) (XSel (XVar 117) [At (IV 135)]);
StoreFlat 52 (IV 136) (XBin (XBin (XSel (XVar 9) [At (IV 135)]) (XBin (XBin (XSel (XVar 16) [At (IV 135)]) (XSel (XVar 3) [At (IV 135)])) (XFlat (XVar 22) (IV 136)))) (XFlat (XVar 18) (IV 136)))]);
Store 52 [Sl (BNone) (BNone) (SOne); Sl (BNone) (BNone) (SBy (IC 2))] (XVar 42);
Store 53 [Sl (BNone) (BNone) (SOne)] (XBin (XVar 51) (XVar 52));
Let 137 (XVar 53)];
Let 138 (XVar 53)]).
(** multisim/parts/hex_num.py 1474: HexNum.get_diff_impl *)
Definition m_HexNumImpl : method := mkM "HexNumImpl" "get_diff_impl"
  [("T", 1); ("timestep", 2); ("_ui", 3); ("_T_ext", 4); ("_process_flows", 5); ("_dm_io", 6); ("_dm_top", 7); ("_dm_bot", 8); ("_dm_port", 9); ("stepnum", 10); ("res_dm", 11); ("_channel_divisor", 14); ("_flow_per_channel", 15); ("_cp_T", 17); ("_lam_fld", 18); ("_rho_T", 19); ("_ny_T", 20); ("_lam_mean", 24); ("A_channel", 25); ("grid_spacing", 26); ("_UA_dim1", 27); ("_UA_dim1_wll", 29); ("_dm_sup", 32); ("_num_channels_sup", 33); ("_T_sup", 34); ("_d_h", 38); ("_cell_dist", 39); ("_corr_Re", 40); ("_alpha_i", 41); ("_dm_dmd", 56); ("_num_channels_dmd", 57); ("_T_dmd", 58); ("A_plate_eff", 75); ("_s_plate", 77); ("_lam_wll", 78); ("_UA_dim2", 80); ("V_cell_fld", 82); ("_rhocp", 83); ("_mcp", 85); ("_cp_wll", 89); ("ports_all", 91); ("_port_link_idx", 92); ("_port_own_idx", 93); ("_UA_port", 95); ("_UA_port_wll", 96); ("_A_p_fld_mean", 97); ("_port_gsp", 98); ("_lam_T", 99); ("_cp_port", 100); ("_lam_port_fld", 101); ("_T_port", 102); ("_UA_amb_shell", 111); ("_T_amb", 112); ("dT_cond", 113); ("dT_adv", 114); ("dT_total", 117)]
(block [
Store 4 [Sl (BIx (IC 1)) (BEnd 1) (SOne); Sl (BIx (IC 1)) (BEnd 1) (SOne)] (XReshape (XVar 1) (XVar 3));
block [
If (XSel (XVar 5) [At (IC 0)])
(block [
For 12 (ISize 6)
(block [
If (XBin (XSel (XVar 6) [At (IV 12)]) (XNum))
(block [
Store 7 [Sl (BIx (IC 1)) (BNone) (SOne); At (IV 12)] (XSel (XVar 6) [At (IV 12)]);
Store 8 [Sl (BNone) (BEnd 1) (SOne); At (IV 12)] (XNum);
Store 9 [At (IMul (IV 12) (IC 2))] (XSel (XVar 6) [At (IV 12)]);
Store 9 [At (IAdd (IMul (IV 12) (IC 2)) (IC 1))] (XNum)])
(block [
Store 8 [Sl (BNone) (BEnd 1) (SOne); At (IV 12)] (XSel (XVar 6) [At (IV 12)]);
Store 7 [Sl (BIx (IC 1)) (BNone) (SOne); At (IV 12)] (XNum);
Store 9 [At (IMul (IV 12) (IC 2))] (XNum);
Store 9 [At (IAdd (IMul (IV 12) (IC 2)) (IC 1))] (XSel (XVar 6) [At (IV 12)])])]);
Store 11 [At (IElem 10 (IC 0))] (XVar 6)])
(Skip);
Let 13 (XNum)];
Store 5 [At (IC 0)] (XVar 13);
Let 15 (XBin (XVar 6) (XVar 14));
Let 16 (XSel (XVar 4) [Sl (BNone) (BNone) (SOne); Sl (BIx (IC 1)) (BNone) (SBy (IC 2))]);
block [
block [
Store 17 [Sl (BNone) (BNone) (SOne)] (XBin (XBin (XBin (XBin (XNum) (XBin (XNum) (XVar 16))) (XBin (XNum) (XBin (XVar 16) (XNum)))) (XBin (XNum) (XBin (XVar 16) (XNum)))) (XBin (XNum) (XBin (XVar 16) (XNum))))];
Let 21 (XSel (XVar 16) [Sl (BIx (IC 1)) (BEnd 1) (SOne)]);
block [
Store 18 [Sl (BNone) (BNone) (SOne)] (XBin (XBin (XBin (XNum) (XBin (XNum) (XVar 21))) (XBin (XNum) (XBin (XVar 21) (XNum)))) (XBin (XNum) (XBin (XVar 21) (XNum))))];
Let 22 (XSel (XVar 16) [Sl (BIx (IC 1)) (BEnd 1) (SOne)]);
block [
Store 19 [Sl (BNone) (BNone) (SOne)] (XBin (XBin (XBin (XBin (XNum) (XBin (XNum) (XVar 22))) (XBin (XNum) (XBin (XVar 22) (XNum)))) (XBin (XNum) (XBin (XVar 22) (XNum)))) (XBin (XNum) (XBin (XVar 22) (XNum))))];
Let 23 (XSel (XVar 16) [Sl (BIx (IC 1)) (BEnd 1) (SOne)]);
block [
Store 20 [Sl (BNone) (BNone) (SOne)] (XBin (XBin (XBin (XBin (XNum) (XBin (XNum) (XVar 23))) (XBin (XNum) (XBin (XVar 23) (XNum)))) (XBin (XNum) (XBin (XVar 23) (XNum)))) (XBin (XNum) (XBin (XVar 23) (XNum))))]];
block [
Store 24 [Sl (BNone) (BNone) (SOne)] (XBin (XBin (XBin (XNum) (XSel (XVar 18) [Sl (BNone) (BEnd 1) (SOne)])) (XSel (XVar 18) [Sl (BIx (IC 1)) (BNone) (SOne)])) (XBin (XSel (XVar 18) [Sl (BNone) (BEnd 1) (SOne)]) (XSel (XVar 18) [Sl (BIx (IC 1)) (BNone) (SOne)])))];
Let 28 (XSel (XVar 27) [Sl (BNone) (BNone) (SOne); Sl (BNone) (BNone) (SBy (IC 2))]);
block [
Store 28 [Sl (BIx (IC 1)) (BEnd 1) (SOne)] (XBin (XBin (XVar 25) (XVar 26)) (XVar 24))];
Let 30 (XSel (XVar 27) [Sl (BNone) (BNone) (SOne); At (IC 1)]);
block [
Store 30 [Sl (BIx (IC 1)) (BEnd 1) (SOne)] (XVar 29)];
Let 31 (XBin (XVar 32) (XVar 33));
Let 35 (XSel (XVar 19) [Sl (BNone) (BNone) (SOne); At (IC 0)]);
Let 36 (XSel (XVar 20) [Sl (BNone) (BNone) (SOne); At (IC 0)]);
Let 37 (XSel (XVar 18) [Sl (BNone) (BNone) (SOne); At (IC 0)]);
Let 42 (XSel (XVar 41) [Sl (BNone) (BNone) (SOne); At (IC 0)]);
block [
Let 43 (XLike (XVar 42));
Let 44 (XLike (XVar 42));
Let 45 (XBin (XVar 31) (XBin (XVar 35) (XVar 25)));
block [
Store 43 [Sl (BNone) (BNone) (SOne)] (XBin (XBin (XVar 45) (XVar 38)) (XVar 36))];
block [
Let 46 (XBin (XBin (XBin (XNum) (XBin (XNum) (XVar 34))) (XBin (XNum) (XBin (XVar 34) (XNum)))) (XBin (XNum) (XBin (XVar 34) (XNum))))];
Let 47 (XVar 46);
block [
Let 48 (XBin (XBin (XBin (XNum) (XBin (XNum) (XVar 34))) (XBin (XNum) (XBin (XVar 34) (XNum)))) (XBin (XNum) (XBin (XVar 34) (XNum))))];
Let 49 (XVar 48);
Store 43 [] (XVar 40);
Let 50 (XBin (XBin (XVar 47) (XVar 49)) (XNum));
Let 51 (XBin (XVar 43) (XVar 47));
MkMask 52 (XBin (XVar 43) (XNum));
Let 53 (XBin (XBin (XMask (XVar 51) 52 false) (XVar 38)) (XMask (XVar 39) 52 false));
StoreMask 44 52 false (XBin (XBin (XBin (XNum) (XBin (XBin (XBin (XNum) (XBin (XVar 53) (XBin (XNum) (XNum)))) (XNum)) (XNum))) (XBin (XBin (XBin (XBin (XNum) (XBin (XNum) (XBin (XNum) (XMask (XVar 47) 52 false)))) (XBin (XNum) (XNum))) (XBin (XVar 53) (XNum))) (XNum))) (XBin (XNum) (XNum)));
Let 54 (XBin (XBin (XBin (XNum) (XMask (XVar 43) 52 true)) (XNum)) (XInt (IC (-2))));
StoreMask 44 52 true (XBin (XBin (XBin (XBin (XVar 54) (XNum)) (XMask (XVar 51) 52 true)) (XBin (XNum) (XBin (XBin (XNum) (XBin (XBin (XMask (XVar 47) 52 true) (XBin (XNum) (XNum))) (XNum))) (XBin (XBin (XVar 54) (XNum)) (XNum))))) (XBin (XNum) (XBin (XBin (XVar 38) (XMask (XVar 39) 52 true)) (XBin (XNum) (XNum)))));
Store 42 [Sl (BNone) (BNone) (SOne)] (XBin (XBin (XBin (XVar 44) (XVar 50)) (XVar 37)) (XVar 38))];
Let 55 (XBin (XVar 56) (XVar 57));
Let 59 (XSel (XVar 19) [Sl (BNone) (BNone) (SOne); At (IC 1)]);
Let 60 (XSel (XVar 20) [Sl (BNone) (BNone) (SOne); At (IC 1)]);
Let 61 (XSel (XVar 18) [Sl (BNone) (BNone) (SOne); At (IC 1)]);
Let 62 (XSel (XVar 41) [Sl (BNone) (BNone) (SOne); At (IC 1)]);
block [
Let 63 (XLike (XVar 62));
Let 64 (XLike (XVar 62));
Let 65 (XBin (XVar 55) (XBin (XVar 59) (XVar 25)));
block [
Store 63 [Sl (BNone) (BNone) (SOne)] (XBin (XBin (XVar 65) (XVar 38)) (XVar 60))];
block [
Let 66 (XBin (XBin (XBin (XNum) (XBin (XNum) (XVar 58))) (XBin (XNum) (XBin (XVar 58) (XNum)))) (XBin (XNum) (XBin (XVar 58) (XNum))))];
Let 67 (XVar 66);
block [
Let 68 (XBin (XBin (XBin (XNum) (XBin (XNum) (XVar 58))) (XBin (XNum) (XBin (XVar 58) (XNum)))) (XBin (XNum) (XBin (XVar 58) (XNum))))];
Let 69 (XVar 68);
Store 63 [] (XVar 40);
Let 70 (XBin (XBin (XVar 67) (XVar 69)) (XNum));
Let 71 (XBin (XVar 63) (XVar 67));
MkMask 72 (XBin (XVar 63) (XNum));
Let 73 (XBin (XBin (XMask (XVar 71) 72 false) (XVar 38)) (XMask (XVar 39) 72 false));
StoreMask 64 72 false (XBin (XBin (XBin (XNum) (XBin (XBin (XBin (XNum) (XBin (XVar 73) (XBin (XNum) (XNum)))) (XNum)) (XNum))) (XBin (XBin (XBin (XBin (XNum) (XBin (XNum) (XBin (XNum) (XMask (XVar 67) 72 false)))) (XBin (XNum) (XNum))) (XBin (XVar 73) (XNum))) (XNum))) (XBin (XNum) (XNum)));
Let 74 (XBin (XBin (XBin (XNum) (XMask (XVar 63) 72 true)) (XNum)) (XInt (IC (-2))));
StoreMask 64 72 true (XBin (XBin (XBin (XBin (XVar 74) (XNum)) (XMask (XVar 71) 72 true)) (XBin (XNum) (XBin (XBin (XNum) (XBin (XBin (XMask (XVar 67) 72 true) (XBin (XNum) (XNum))) (XNum))) (XBin (XBin (XVar 74) (XNum)) (XNum))))) (XBin (XNum) (XBin (XBin (XVar 38) (XMask (XVar 39) 72 true)) (XBin (XNum) (XNum)))));
Store 62 [Sl (BNone) (BNone) (SOne)] (XBin (XBin (XBin (XVar 64) (XVar 70)) (XVar 61)) (XVar 38))];
Let 76 (XBin (XVar 77) (XNum));
block [
Let 79 (XBin (XVar 75) (XBin (XBin (XNum) (XVar 41)) (XBin (XVar 76) (XVar 78))))];
Store 80 [Sl (BNone) (BNone) (SOne); Sl (BIx (IC 1)) (BIx (IC 3)) (SOne)] (XVar 79);
Let 81 (XSel (XVar 4) [Sl (BNone) (BNone) (SOne); Sl (BIx (IC 1)) (BNone) (SBy (IC 2))]);
Let 84 (XSel (XVar 83) [Sl (BNone) (BNone) (SOne); Sl (BNone) (BNone) (SBy (IC 2))]);
Let 86 (XSel (XVar 85) [Sl (BNone) (BNone) (SOne); Sl (BNone) (BNone) (SBy (IC 2))]);
Let 87 (XSel (XVar 3) [Sl (BNone) (BNone) (SOne); Sl (BNone) (BNone) (SBy (IC 2))]);
block [
Store 84 [Sl (BNone) (BNone) (SOne)] (XBin (XVar 19) (XSel (XVar 17) [Sl (BIx (IC 1)) (BEnd 1) (SOne)]));
Store 86 [Sl (BNone) (BNone) (SOne)] (XBin (XVar 82) (XVar 84));
Store 87 [Sl (BNone) (BNone) (SOne)] (XBin (XSel (XVar 17) [Sl (BIx (IC 1)) (BEnd 1) (SOne)]) (XSel (XVar 81) [Sl (BIx (IC 1)) (BEnd 1) (SOne)]))];
Let 88 (XSel (XVar 4) [Sl (BIx (IC 1)) (BEnd 1) (SOne); At (IC 2)]);
Let 90 (XSel (XVar 3) [Sl (BNone) (BNone) (SOne); At (IC 1)]);
block [
Store 90 [Sl (BNone) (BNone) (SOne)] (XBin (XVar 89) (XVar 88))];
Let 94 (XSel (XVar 4) [Sl (BIx (IC 1)) (BEnd 1) (SOne); Sl (BIx (IC 1)) (BEnd 1) (SOne)]);
block [
Let 103 (XLike (XVar 93));
For 104 (ISize 92)
(block [
Let 105 (XSel (XVar 91) [At (IElem 92 (IV 104))]);
LetInt 106 (IElem 93 (IV 104));
StoreFlat 102 (IV 104) (XVar 105);
block [
Let 107 (XBin (XBin (XBin (XBin (XNum) (XBin (XNum) (XVar 105))) (XBin (XNum) (XBin (XVar 105) (XNum)))) (XBin (XNum) (XBin (XVar 105) (XNum)))) (XBin (XNum) (XBin (XVar 105) (XNum))))];
StoreFlat 100 (IV 104) (XVar 107);
block [
Let 108 (XBin (XBin (XBin (XNum) (XBin (XNum) (XVar 105))) (XBin (XNum) (XBin (XVar 105) (XNum)))) (XBin (XNum) (XBin (XVar 105) (XNum))))];
StoreFlat 101 (IV 104) (XVar 108);
StoreFlat 95 (IV 104) (XBin (XBin (XSel (XVar 97) [At (IV 104)]) (XBin (XBin (XSel (XVar 98) [At (IV 104)]) (XBin (XNum) (XSel (XVar 101) [At (IV 104)]))) (XBin (XVar 26) (XBin (XNum) (XFlat (XVar 99) (IV 106)))))) (XSel (XVar 96) [At (IV 104)]));
StoreFlat 103 (IV 104) (XBin (XBin (XFlat (XVar 95) (IV 104)) (XBin (XVar 105) (XFlat (XVar 94) (IV 106)))) (XFlat (XVar 85) (IV 106)))]);
Let 109 (XVar 103)];
Let 110 (XVar 109);
Store 111 [Sl (BNone) (BNone) (SOne)] (XNum);
Store 113 [Sl (BNone) (BNone) (SOne)] (XBin (XBin (XBin (XBin (XBin (XBin (XSel (XVar 27) [Sl (BNone) (BEnd 1) (SOne)]) (XBin (XSel (XVar 4) [Sl (BNone) (BEnd 2) (SOne); Sl (BIx (IC 1)) (BEnd 1) (SOne)]) (XSel (XVar 4) [Sl (BIx (IC 1)) (BEnd 1) (SOne); Sl (BIx (IC 1)) (BEnd 1) (SOne)]))) (XBin (XSel (XVar 27) [Sl (BIx (IC 1)) (BNone) (SOne)]) (XBin (XSel (XVar 4) [Sl (BIx (IC 2)) (BNone) (SOne); Sl (BIx (IC 1)) (BEnd 1) (SOne)]) (XSel (XVar 4) [Sl (BIx (IC 1)) (BEnd 1) (SOne); Sl (BIx (IC 1)) (BEnd 1) (SOne)])))) (XBin (XSel (XVar 80) [Sl (BNone) (BNone) (SOne); Sl (BNone) (BEnd 1) (SOne)]) (XBin (XSel (XVar 4) [Sl (BIx (IC 1)) (BEnd 1) (SOne); Sl (BNone) (BEnd 2) (SOne)]) (XSel (XVar 4) [Sl (BIx (IC 1)) (BEnd 1) (SOne); Sl (BIx (IC 1)) (BEnd 1) (SOne)])))) (XBin (XSel (XVar 80) [Sl (BNone) (BNone) (SOne); Sl (BIx (IC 1)) (BNone) (SOne)]) (XBin (XSel (XVar 4) [Sl (BIx (IC 1)) (BEnd 1) (SOne); Sl (BIx (IC 2)) (BNone) (SOne)]) (XSel (XVar 4) [Sl (BIx (IC 1)) (BEnd 1) (SOne); Sl (BIx (IC 1)) (BEnd 1) (SOne)])))) (XBin (XVar 111) (XBin (XVar 112) (XSel (XVar 4) [Sl (BIx (IC 1)) (BEnd 1) (SOne); Sl (BIx (IC 1)) (BEnd 1) (SOne)])))) (XVar 85));
Store 114 [Sl (BNone) (BNone) (SOne); Sl (BNone) (BNone) (SBy (IC 2))] (XBin (XBin (XBin (XVar 7) (XBin (XBin (XSel (XVar 17) [Sl (BNone) (BEnd 2) (SOne)]) (XSel (XVar 4) [Sl (BNone) (BEnd 2) (SOne); Sl (BIx (IC 1)) (BNone) (SBy (IC 2))])) (XSel (XVar 3) [Sl (BNone) (BNone) (SOne); Sl (BNone) (BNone) (SBy (IC 2))]))) (XBin (XVar 8) (XBin (XBin (XSel (XVar 17) [Sl (BIx (IC 2)) (BNone) (SOne)]) (XSel (XVar 4) [Sl (BIx (IC 2)) (BNone) (SOne); Sl (BIx (IC 1)) (BNone) (SBy (IC 2))])) (XSel (XVar 3) [Sl (BNone) (BNone) (SOne); Sl (BNone) (BNone) (SBy (IC 2))])))) (XSel (XVar 85) [Sl (BNone) (BNone) (SOne); Sl (BNone) (BNone) (SBy (IC 2))]));
For 115 (ISize 93)
(block [
LetInt 116 (IElem 93 (IV 115));
StoreFlat 113 (IV 116) (XSel (XVar 110) [At (IV 115)]);
StoreFlat 114 (IV 116) (XBin (XBin (XSel (XVar 9) [At (IV 115)]) (XBin (XBin (XSel (XVar 100) [At (IV 115)]) (XSel (XVar 102) [At (IV 115)])) (XFlat (XVar 3) (IV 116)))) (XFlat (XVar 85) (IV 116)))]);
Store 114 [Sl (BNone) (BNone) (SOne); Sl (BNone) (BNone) (SBy (IC 2))] (XVar 14);
Store 117 [Sl (BNone) (BNone) (SOne)] (XBin (XVar 113) (XVar 114));
Let 118 (XVar 117)]).
(** multisim/parts/heatexchanger.py 1144: HeatExchanger.solve *)
Definition m_HeatExchanger : method := mkM "HeatExchanger" "solve"
  [("timestep", 1); ("T", 2); ("_T_port", 3); ("_T_mean", 4); ("ports_all", 5); ("res", 6); ("_dm_io", 7); ("_dm_port", 8); ("_cp_mean", 9); ("_lam_mean", 10); ("_rho_mean", 11); ("_ny_mean", 12); ("_lam_plate", 13); ("_alpha_i", 14); ("_UA_fld_wll", 15); ("_UA_fld_wll_fld", 16); ("_port_own_idx", 17); ("_port_link_idx", 18); ("A_plate_eff", 19); ("A_channel", 20); ("_d_h", 21); ("_s_plate", 22); ("_cell_dist", 23); ("_num_A", 24); ("_num_channels_sup", 25); ("_num_channels_dmd", 26); ("_corr_Re", 27); ("stepnum", 28)]
(block [
block [
block [
For 29 (ISize 18)
(block [
StoreFlat 3 (IV 29) (XSel (XVar 5) [At (IElem 18 (IV 29))])])];
If (XBin (XSel (XVar 7) [At (IC 0)]) (XNum))
(block [
Let 30 (XSel (XVar 7) [At (IC 0)]);
Let 31 (XSel (XVar 3) [At (IC 0)]);
Let 32 (XSel (XVar 3) [At (IC 1)]);
Store 8 [At (IC 0)] (XSel (XVar 7) [At (IC 0)]);
Store 8 [At (IC 1)] (XNum)])
(block [
Let 30 (XSel (XVar 7) [At (IC 0)]);
Let 31 (XSel (XVar 3) [At (IC 1)]);
Let 32 (XSel (XVar 3) [At (IC 0)]);
Store 8 [At (IC 0)] (XNum);
Store 8 [At (IC 1)] (XSel (XVar 7) [At (IC 0)])]);
If (XBin (XSel (XVar 7) [At (IC 1)]) (XNum))
(block [
Let 33 (XSel (XVar 7) [At (IC 1)]);
Let 34 (XSel (XVar 3) [At (IC 2)]);
Let 35 (XSel (XVar 3) [At (IC 3)]);
Store 8 [At (IC 2)] (XSel (XVar 7) [At (IC 1)]);
Store 8 [At (IC 3)] (XNum)])
(block [
Let 33 (XSel (XVar 7) [At (IC 1)]);
Let 34 (XSel (XVar 3) [At (IC 3)]);
Let 35 (XSel (XVar 3) [At (IC 2)]);
Store 8 [At (IC 2)] (XNum);
Store 8 [At (IC 3)] (XSel (XVar 7) [At (IC 1)])]);
If (XBin (XBin (XVar 30) (XNum)) (XBin (XVar 33) (XNum)))
(block [
Store 4 [At (IC 0)] (XBin (XBin (XVar 31) (XVar 32)) (XNum));
Store 4 [At (IC 1)] (XBin (XBin (XVar 34) (XVar 35)) (XNum));
block [
block [
Store 9 [Sl (BNone) (BNone) (SOne)] (XBin (XBin (XBin (XBin (XNum) (XBin (XNum) (XVar 4))) (XBin (XNum) (XBin (XVar 4) (XNum)))) (XBin (XNum) (XBin (XVar 4) (XNum)))) (XBin (XNum) (XBin (XVar 4) (XNum))))];
block [
Store 10 [Sl (BNone) (BNone) (SOne)] (XBin (XBin (XBin (XNum) (XBin (XNum) (XVar 4))) (XBin (XNum) (XBin (XVar 4) (XNum)))) (XBin (XNum) (XBin (XVar 4) (XNum))))];
block [
Store 11 [Sl (BNone) (BNone) (SOne)] (XBin (XBin (XBin (XBin (XNum) (XBin (XNum) (XVar 4))) (XBin (XNum) (XBin (XVar 4) (XNum)))) (XBin (XNum) (XBin (XVar 4) (XNum)))) (XBin (XNum) (XBin (XVar 4) (XNum))))];
block [
Store 12 [Sl (BNone) (BNone) (SOne)] (XBin (XBin (XBin (XBin (XNum) (XBin (XNum) (XVar 4))) (XBin (XNum) (XBin (XVar 4) (XNum)))) (XBin (XNum) (XBin (XVar 4) (XNum)))) (XBin (XNum) (XBin (XVar 4) (XNum))))]];
Let 36 (XBin (XVar 30) (XVar 25));
Let 37 (XSel (XVar 4) [At (IC 0)]);
Let 38 (XSel (XVar 4) [At (IC 0)]);
Let 39 (XSel (XVar 11) [At (IC 0)]);
Let 40 (XSel (XVar 12) [At (IC 0)]);
Let 41 (XSel (XVar 10) [At (IC 0)]);
Let 42 (XSel (XVar 14) [Sl (BIx (IC 0)) (BIx (IC 1)) (SOne)]);
block [
Let 43 (XLike (XVar 42));
Let 44 (XLike (XVar 42));
Let 45 (XBin (XVar 36) (XBin (XVar 39) (XVar 20)));
block [
Store 43 [Sl (BNone) (BNone) (SOne)] (XBin (XBin (XVar 45) (XVar 21)) (XVar 40))];
block [
Let 46 (XBin (XBin (XBin (XNum) (XBin (XNum) (XVar 37))) (XBin (XNum) (XBin (XVar 37) (XNum)))) (XBin (XNum) (XBin (XVar 37) (XNum))))];
Let 47 (XVar 46);
block [
Let 48 (XBin (XBin (XBin (XNum) (XBin (XNum) (XVar 38))) (XBin (XNum) (XBin (XVar 38) (XNum)))) (XBin (XNum) (XBin (XVar 38) (XNum))))];
Let 49 (XVar 48);
Store 43 [] (XVar 27);
Let 50 (XBin (XBin (XVar 47) (XVar 49)) (XNum));
Let 51 (XBin (XVar 43) (XVar 47));
MkMask 52 (XBin (XVar 43) (XNum));
Let 53 (XBin (XBin (XMask (XVar 51) 52 false) (XVar 21)) (XVar 23));
StoreMask 44 52 false (XBin (XBin (XBin (XNum) (XBin (XBin (XBin (XNum) (XBin (XVar 53) (XBin (XNum) (XNum)))) (XNum)) (XNum))) (XBin (XBin (XBin (XBin (XNum) (XBin (XNum) (XBin (XNum) (XVar 47)))) (XBin (XNum) (XNum))) (XBin (XVar 53) (XNum))) (XNum))) (XBin (XNum) (XNum)));
Let 54 (XBin (XBin (XBin (XNum) (XMask (XVar 43) 52 true)) (XNum)) (XInt (IC (-2))));
StoreMask 44 52 true (XBin (XBin (XBin (XBin (XVar 54) (XNum)) (XMask (XVar 51) 52 true)) (XBin (XNum) (XBin (XBin (XNum) (XBin (XBin (XVar 47) (XBin (XNum) (XNum))) (XNum))) (XBin (XBin (XVar 54) (XNum)) (XNum))))) (XBin (XNum) (XBin (XBin (XVar 21) (XVar 23)) (XBin (XNum) (XNum)))));
Store 42 [Sl (BNone) (BNone) (SOne)] (XBin (XBin (XBin (XVar 44) (XVar 50)) (XVar 41)) (XVar 21))];
Let 55 (XBin (XVar 33) (XVar 26));
Let 56 (XSel (XVar 4) [At (IC 1)]);
Let 57 (XSel (XVar 4) [At (IC 1)]);
Let 58 (XSel (XVar 11) [At (IC 1)]);
Let 59 (XSel (XVar 12) [At (IC 1)]);
Let 60 (XSel (XVar 10) [At (IC 1)]);
Let 61 (XSel (XVar 14) [Sl (BIx (IC 1)) (BIx (IC 2)) (SOne)]);
block [
Let 62 (XLike (XVar 61));
Let 63 (XLike (XVar 61));
Let 64 (XBin (XVar 55) (XBin (XVar 58) (XVar 20)));
block [
Store 62 [Sl (BNone) (BNone) (SOne)] (XBin (XBin (XVar 64) (XVar 21)) (XVar 59))];
block [
Let 65 (XBin (XBin (XBin (XNum) (XBin (XNum) (XVar 56))) (XBin (XNum) (XBin (XVar 56) (XNum)))) (XBin (XNum) (XBin (XVar 56) (XNum))))];
Let 66 (XVar 65);
block [
Let 67 (XBin (XBin (XBin (XNum) (XBin (XNum) (XVar 57))) (XBin (XNum) (XBin (XVar 57) (XNum)))) (XBin (XNum) (XBin (XVar 57) (XNum))))];
Let 68 (XVar 67);
Store 62 [] (XVar 27);
Let 69 (XBin (XBin (XVar 66) (XVar 68)) (XNum));
Let 70 (XBin (XVar 62) (XVar 66));
MkMask 71 (XBin (XVar 62) (XNum));
Let 72 (XBin (XBin (XMask (XVar 70) 71 false) (XVar 21)) (XVar 23));
StoreMask 63 71 false (XBin (XBin (XBin (XNum) (XBin (XBin (XBin (XNum) (XBin (XVar 72) (XBin (XNum) (XNum)))) (XNum)) (XNum))) (XBin (XBin (XBin (XBin (XNum) (XBin (XNum) (XBin (XNum) (XVar 66)))) (XBin (XNum) (XNum))) (XBin (XVar 72) (XNum))) (XNum))) (XBin (XNum) (XNum)));
Let 73 (XBin (XBin (XBin (XNum) (XMask (XVar 62) 71 true)) (XNum)) (XInt (IC (-2))));
StoreMask 63 71 true (XBin (XBin (XBin (XBin (XVar 73) (XNum)) (XMask (XVar 70) 71 true)) (XBin (XNum) (XBin (XBin (XNum) (XBin (XBin (XVar 66) (XBin (XNum) (XNum))) (XNum))) (XBin (XBin (XVar 73) (XNum)) (XNum))))) (XBin (XNum) (XBin (XBin (XVar 21) (XVar 23)) (XBin (XNum) (XNum)))));
Store 61 [Sl (BNone) (BNone) (SOne)] (XBin (XBin (XBin (XVar 63) (XVar 69)) (XVar 60)) (XVar 21))];
Let 74 (XBin (XVar 22) (XNum));
Let 75 (XSel (XVar 13) [At (IC 0)]);
block [
Let 76 (XBin (XVar 19) (XBin (XBin (XNum) (XVar 14)) (XBin (XVar 74) (XVar 75))))];
Store 15 [Sl (BNone) (BNone) (SOne)] (XVar 76);
Store 16 [At (IC 0)] (XBin (XBin (XSel (XVar 15) [At (IC 0)]) (XSel (XVar 15) [At (IC 1)])) (XVar 24));
Let 77 (XBin (XVar 30) (XSel (XVar 9) [At (IC 0)]));
Let 78 (XBin (XVar 33) (XSel (XVar 9) [At (IC 1)]));
If (XBin (XVar 77) (XNum))
(block [
Let 79 (XBin (XSel (XVar 16) [At (IC 0)]) (XVar 77))])
(block [
Let 79 (XNum)]);
If (XBin (XVar 78) (XNum))
(block [
Let 80 (XBin (XVar 77) (XVar 78))])
(block [
Let 80 (XNum)]);
Let 81 (XBin (XBin (XVar 80) (XNum)) (XVar 79));
If (XBin (XBin (XVar 80) (XNum)) (XBin (XVar 81) (XNum)))
(block [
Let 82 (XBin (XBin (XNum) (XVar 81)) (XBin (XNum) (XBin (XVar 80) (XVar 81))))])
(block [
If (XBin (XVar 81) (XNum))
(block [
Let 82 (XBin (XNum) (XVar 80))])
(block [
Let 82 (XBin (XVar 79) (XBin (XNum) (XVar 79)))])]);
Let 83 (XBin (XVar 82) (XVar 80));
If (XBin (XVar 82) (XVar 82))
(block [
Let 82 (XNum);
Let 83 (XNum)])
(Skip);
Let 32 (XBin (XVar 31) (XBin (XVar 82) (XBin (XVar 31) (XVar 34))));
Let 35 (XBin (XVar 34) (XBin (XVar 83) (XBin (XVar 31) (XVar 34))))])
(block [
If (XBin (XVar 30) (XNum))
(block [
Let 32 (XVar 31)])
(block [
If (XBin (XVar 33) (XNum))
(block [
Let 35 (XVar 34)])
(Skip)])]);
If (XBin (XSel (XVar 7) [At (IC 0)]) (XNum))
(block [
Store 2 [At (IC 0)] (XVar 31);
Store 2 [At (IC 1)] (XVar 32)])
(block [
Store 2 [At (IC 1)] (XVar 31);
Store 2 [At (IC 0)] (XVar 32)]);
If (XBin (XSel (XVar 7) [At (IC 1)]) (XNum))
(block [
Store 2 [At (IC 2)] (XVar 34);
Store 2 [At (IC 3)] (XVar 35)])
(block [
Store 2 [At (IC 3)] (XVar 34);
Store 2 [At (IC 2)] (XVar 35)]);
Store 6 [At (IElem 28 (IC 0))] (XVar 2)]]).
(** multisim/parts/mixingvalve.py 629: MixingValve.solve *)
Definition m_MixingValve : method := mkM "MixingValve" "solve"
  [("timestep", 1); ("_dm_io", 2); ("stepnum", 3); ("res_dm", 4); ("kind", 5); ("ports_all", 6); ("_port_link_idx", 7); ("T", 8); ("res", 15)]
(block [
Store 4 [Pick 3] (XVar 2);
If (XBin (XVar 5) (XNum))
(block [
block [
Store 8 [Sl (BNone) (BNone) (SOne)] (XSel (XVar 6) [Pick 7]);
If (XBin (XSel (XVar 2) [At (IC 2)]) (XNum))
(block [
Store 8 [At (IC 2)] (XBin (XBin (XSel (XVar 8) [At (IC 0)]) (XSel (XVar 8) [At (IC 1)])) (XNum));
block [
Let 9 (XBin (XBin (XBin (XBin (XNum) (XBin (XNum) (XVar 8))) (XBin (XNum) (XBin (XVar 8) (XNum)))) (XBin (XNum) (XBin (XVar 8) (XNum)))) (XBin (XNum) (XBin (XVar 8) (XNum))))];
Let 10 (XVar 9);
Let 11 (XBin (XBin (XBin (XBin (XSel (XVar 2) [At (IC 0)]) (XSel (XVar 10) [At (IC 0)])) (XSel (XVar 8) [At (IC 0)])) (XBin (XBin (XSel (XVar 2) [At (IC 1)]) (XSel (XVar 10) [At (IC 1)])) (XSel (XVar 8) [At (IC 1)]))) (XBin (XSel (XVar 2) [At (IC 2)]) (XSel (XVar 10) [At (IC 2)])));
Store 8 [Sl (BIx (IC 0)) (BIx (IC 2)) (SOne)] (XSel (XVar 8) [At (IC 2)]);
Store 8 [At (IC 2)] (XVar 11)])
(block [
Let 11 (XBin (XBin (XSel (XVar 8) [At (IC 0)]) (XSel (XVar 8) [At (IC 1)])) (XNum));
Let 12 (XBin (XBin (XSel (XVar 8) [At (IC 1)]) (XSel (XVar 8) [At (IC 2)])) (XNum));
Let 13 (XBin (XBin (XSel (XVar 8) [At (IC 0)]) (XSel (XVar 8) [At (IC 2)])) (XNum));
Store 8 [At (IC 0)] (XVar 12);
Store 8 [At (IC 1)] (XVar 13);
Store 8 [At (IC 2)] (XVar 11)])]])
(block [
block [
Store 8 [Sl (BNone) (BNone) (SOne)] (XSel (XVar 6) [Pick 7]);
Let 14 (XBin (XRed false (XSel (XVar 8) [Sl (BIx (IC 0)) (BIx (IC 2)) (SOne)])) (XNum));
Store 8 [Sl (BIx (IC 0)) (BIx (IC 2)) (SOne)] (XSel (XVar 8) [At (IC 2)]);
Store 8 [At (IC 2)] (XVar 14)]]);
Store 15 [Pick 3] (XVar 8)]).
(** multisim/parts/pump.py 444: Pump.solve *)
Definition m_Pump : method := mkM "Pump" "solve"
  [("timestep", 1); ("ports_all", 2); ("_port_link_idx", 3); ("T", 4); ("res", 5); ("res_dm", 6); ("dm", 7); ("stepnum", 8)]
(block [
block [
block [
Store 4 [Sl (BNone) (BNone) (SOne)] (XSel (XSel (XVar 2) [Pick 3]) [Sl (BNone) (BNone) (SRev)])];
Store 6 [At (IElem 8 (IC 0)); At (IC 0)] (XSel (XVar 7) [At (IC 0)]);
Store 5 [At (IElem 8 (IC 0))] (XVar 4)]]).
(** multisim/parts/hex_num.py 1312: HexNum.get_diff, without the reading of lam_T.flat (precomp_funs.py 288) *)
Definition m_HexNum_rest : method := mkM "HexNum" "get_diff"
  [("timestep", 1); ("_T_ext", 2); ("_T_port", 3); ("_T_amb", 4); ("ports_all", 5); ("_dm_io", 6); ("_dm_top", 7); ("_dm_bot", 8); ("_dm_port", 9); ("res_dm", 10); ("_cp_T", 11); ("_lam_fld", 12); ("_rho_T", 13); ("_ny_T", 14); ("_lam_mean", 15); ("_cp_port", 16); ("_lam_port_fld", 17); ("_mcp", 18); ("_rhocp", 19); ("_cp_wll", 20); ("_lam_wll", 21); ("_ui", 22); ("_alpha_i", 23); ("_UA_dim1", 24); ("_UA_dim2", 25); ("_UA_dim1_wll", 26); ("_UA_port", 27); ("_UA_port_wll", 28); ("_port_own_idx", 29); ("_port_link_idx", 30); ("grid_spacing", 31); ("_port_gsp", 32); ("_port_subs_gsp", 33); ("_d_h", 34); ("_s_plate", 35); ("_cell_dist", 36); ("_dist_min", 37); ("A_channel", 38); ("V_cell_fld", 39); ("A_plate_eff", 40); ("_A_p_fld_mean", 41); ("_channel_divisor", 42); ("_corr_Re", 43); ("_process_flows", 44); ("_step_stable", 45); ("part_id", 46); ("_stability_breaches", 47); ("_vN_max_step", 48); ("_max_factor", 49); ("stepnum", 50); ("dT_cond", 51); ("dT_adv", 52); ("dT_total", 53)]
(block [
block [
Let 54 (XSel (XVar 2) [Sl (BIx (IC 1)) (BEnd 1) (SOne); At (IC 1)]);
Let 55 (XSel (XVar 2) [Sl (BIx (IC 1)) (BEnd 1) (SOne); At (IC 3)]);
Let 56 (XSel (XVar 6) [Sl (BNone) (BIx (IC 1)) (SOne)]);
Let 57 (XSel (XVar 6) [Sl (BIx (IC 1)) (BNone) (SOne)]);
block [
If (XSel (XVar 44) [At (IC 0)])
(block [
For 58 (ISize 6)
(block [
If (XBin (XSel (XVar 6) [At (IV 58)]) (XNum))
(block [
Store 7 [Sl (BIx (IC 1)) (BNone) (SOne); At (IV 58)] (XSel (XVar 6) [At (IV 58)]);
Store 8 [Sl (BNone) (BEnd 1) (SOne); At (IV 58)] (XNum);
Store 9 [At (IMul (IV 58) (IC 2))] (XSel (XVar 6) [At (IV 58)]);
Store 9 [At (IAdd (IMul (IV 58) (IC 2)) (IC 1))] (XNum)])
(block [
Store 8 [Sl (BNone) (BEnd 1) (SOne); At (IV 58)] (XSel (XVar 6) [At (IV 58)]);
Store 7 [Sl (BIx (IC 1)) (BNone) (SOne); At (IV 58)] (XNum);
Store 9 [At (IMul (IV 58) (IC 2))] (XNum);
Store 9 [At (IAdd (IMul (IV 58) (IC 2)) (IC 1))] (XSel (XVar 6) [At (IV 58)])])]);
Store 10 [At (IElem 50 (IC 0))] (XVar 6)])
(Skip);
Let 59 (XNum)];
Store 44 [At (IC 0)] (XVar 59);
Let 60 (XBin (XVar 6) (XVar 42));
Let 61 (XSel (XVar 2) [Sl (BNone) (BNone) (SOne); Sl (BIx (IC 1)) (BNone) (SBy (IC 2))]);
block [
block [
Store 11 [Sl (BNone) (BNone) (SOne)] (XBin (XBin (XBin (XBin (XNum) (XBin (XNum) (XVar 61))) (XBin (XNum) (XBin (XVar 61) (XNum)))) (XBin (XNum) (XBin (XVar 61) (XNum)))) (XBin (XNum) (XBin (XVar 61) (XNum))))];
Let 62 (XSel (XVar 61) [Sl (BIx (IC 1)) (BEnd 1) (SOne)]);
block [
Store 12 [Sl (BNone) (BNone) (SOne)] (XBin (XBin (XBin (XNum) (XBin (XNum) (XVar 62))) (XBin (XNum) (XBin (XVar 62) (XNum)))) (XBin (XNum) (XBin (XVar 62) (XNum))))];
Let 63 (XSel (XVar 61) [Sl (BIx (IC 1)) (BEnd 1) (SOne)]);
block [
Store 13 [Sl (BNone) (BNone) (SOne)] (XBin (XBin (XBin (XBin (XNum) (XBin (XNum) (XVar 63))) (XBin (XNum) (XBin (XVar 63) (XNum)))) (XBin (XNum) (XBin (XVar 63) (XNum)))) (XBin (XNum) (XBin (XVar 63) (XNum))))];
Let 64 (XSel (XVar 61) [Sl (BIx (IC 1)) (BEnd 1) (SOne)]);
block [
Store 14 [Sl (BNone) (BNone) (SOne)] (XBin (XBin (XBin (XBin (XNum) (XBin (XNum) (XVar 64))) (XBin (XNum) (XBin (XVar 64) (XNum)))) (XBin (XNum) (XBin (XVar 64) (XNum)))) (XBin (XNum) (XBin (XVar 64) (XNum))))]];
block [
Store 15 [Sl (BNone) (BNone) (SOne)] (XBin (XBin (XBin (XNum) (XSel (XVar 12) [Sl (BNone) (BEnd 1) (SOne)])) (XSel (XVar 12) [Sl (BIx (IC 1)) (BNone) (SOne)])) (XBin (XSel (XVar 12) [Sl (BNone) (BEnd 1) (SOne)]) (XSel (XVar 12) [Sl (BIx (IC 1)) (BNone) (SOne)])))];
Let 65 (XSel (XVar 24) [Sl (BNone) (BNone) (SOne); Sl (BNone) (BNone) (SBy (IC 2))]);
block [
Store 65 [Sl (BIx (IC 1)) (BEnd 1) (SOne)] (XBin (XBin (XVar 38) (XVar 31)) (XVar 15))];
Let 66 (XSel (XVar 24) [Sl (BNone) (BNone) (SOne); At (IC 1)]);
block [
Store 66 [Sl (BIx (IC 1)) (BEnd 1) (SOne)] (XVar 26)];
Let 67 (XBin (XVar 56) (XSel (XVar 42) [At (IC 0)]));
Let 68 (XSel (XVar 13) [Sl (BNone) (BNone) (SOne); At (IC 0)]);
Let 69 (XSel (XVar 14) [Sl (BNone) (BNone) (SOne); At (IC 0)]);
Let 70 (XSel (XVar 12) [Sl (BNone) (BNone) (SOne); At (IC 0)]);
Let 71 (XSel (XVar 23) [Sl (BNone) (BNone) (SOne); At (IC 0)]);
block [
Let 72 (XLike (XVar 71));
Let 73 (XLike (XVar 71));
Let 74 (XBin (XVar 67) (XBin (XVar 68) (XVar 38)));
block [
Store 72 [Sl (BNone) (BNone) (SOne)] (XBin (XBin (XVar 74) (XVar 34)) (XVar 69))];
block [
Let 75 (XBin (XBin (XBin (XNum) (XBin (XNum) (XVar 54))) (XBin (XNum) (XBin (XVar 54) (XNum)))) (XBin (XNum) (XBin (XVar 54) (XNum))))];
Let 76 (XVar 75);
block [
Let 77 (XBin (XBin (XBin (XNum) (XBin (XNum) (XVar 54))) (XBin (XNum) (XBin (XVar 54) (XNum)))) (XBin (XNum) (XBin (XVar 54) (XNum))))];
Let 78 (XVar 77);
Store 72 [] (XVar 43);
Let 79 (XBin (XBin (XVar 76) (XVar 78)) (XNum));
Let 80 (XBin (XVar 72) (XVar 76));
MkMask 81 (XBin (XVar 72) (XNum));
Let 82 (XBin (XBin (XMask (XVar 80) 81 false) (XVar 34)) (XMask (XVar 36) 81 false));
StoreMask 73 81 false (XBin (XBin (XBin (XNum) (XBin (XBin (XBin (XNum) (XBin (XVar 82) (XBin (XNum) (XNum)))) (XNum)) (XNum))) (XBin (XBin (XBin (XBin (XNum) (XBin (XNum) (XBin (XNum) (XMask (XVar 76) 81 false)))) (XBin (XNum) (XNum))) (XBin (XVar 82) (XNum))) (XNum))) (XBin (XNum) (XNum)));
Let 83 (XBin (XBin (XBin (XNum) (XMask (XVar 72) 81 true)) (XNum)) (XInt (IC (-2))));
StoreMask 73 81 true (XBin (XBin (XBin (XBin (XVar 83) (XNum)) (XMask (XVar 80) 81 true)) (XBin (XNum) (XBin (XBin (XNum) (XBin (XBin (XMask (XVar 76) 81 true) (XBin (XNum) (XNum))) (XNum))) (XBin (XBin (XVar 83) (XNum)) (XNum))))) (XBin (XNum) (XBin (XBin (XVar 34) (XMask (XVar 36) 81 true)) (XBin (XNum) (XNum)))));
Store 71 [Sl (BNone) (BNone) (SOne)] (XBin (XBin (XBin (XVar 73) (XVar 79)) (XVar 70)) (XVar 34))];
Let 84 (XBin (XVar 57) (XSel (XVar 42) [At (IC 1)]));
Let 85 (XSel (XVar 13) [Sl (BNone) (BNone) (SOne); At (IC 1)]);
Let 86 (XSel (XVar 14) [Sl (BNone) (BNone) (SOne); At (IC 1)]);
Let 87 (XSel (XVar 12) [Sl (BNone) (BNone) (SOne); At (IC 1)]);
Let 88 (XSel (XVar 23) [Sl (BNone) (BNone) (SOne); At (IC 1)]);
block [
Let 89 (XLike (XVar 88));
Let 90 (XLike (XVar 88));
Let 91 (XBin (XVar 84) (XBin (XVar 85) (XVar 38)));
block [
Store 89 [Sl (BNone) (BNone) (SOne)] (XBin (XBin (XVar 91) (XVar 34)) (XVar 86))];
block [
Let 92 (XBin (XBin (XBin (XNum) (XBin (XNum) (XVar 55))) (XBin (XNum) (XBin (XVar 55) (XNum)))) (XBin (XNum) (XBin (XVar 55) (XNum))))];
Let 93 (XVar 92);
block [
Let 94 (XBin (XBin (XBin (XNum) (XBin (XNum) (XVar 55))) (XBin (XNum) (XBin (XVar 55) (XNum)))) (XBin (XNum) (XBin (XVar 55) (XNum))))];
Let 95 (XVar 94);
Store 89 [] (XVar 43);
Let 96 (XBin (XBin (XVar 93) (XVar 95)) (XNum));
Let 97 (XBin (XVar 89) (XVar 93));
MkMask 98 (XBin (XVar 89) (XNum));
Let 99 (XBin (XBin (XMask (XVar 97) 98 false) (XVar 34)) (XMask (XVar 36) 98 false));
StoreMask 90 98 false (XBin (XBin (XBin (XNum) (XBin (XBin (XBin (XNum) (XBin (XVar 99) (XBin (XNum) (XNum)))) (XNum)) (XNum))) (XBin (XBin (XBin (XBin (XNum) (XBin (XNum) (XBin (XNum) (XMask (XVar 93) 98 false)))) (XBin (XNum) (XNum))) (XBin (XVar 99) (XNum))) (XNum))) (XBin (XNum) (XNum)));
Let 100 (XBin (XBin (XBin (XNum) (XMask (XVar 89) 98 true)) (XNum)) (XInt (IC (-2))));
StoreMask 90 98 true (XBin (XBin (XBin (XBin (XVar 100) (XNum)) (XMask (XVar 97) 98 true)) (XBin (XNum) (XBin (XBin (XNum) (XBin (XBin (XMask (XVar 93) 98 true) (XBin (XNum) (XNum))) (XNum))) (XBin (XBin (XVar 100) (XNum)) (XNum))))) (XBin (XNum) (XBin (XBin (XVar 34) (XMask (XVar 36) 98 true)) (XBin (XNum) (XNum)))));
Store 88 [Sl (BNone) (BNone) (SOne)] (XBin (XBin (XBin (XVar 90) (XVar 96)) (XVar 87)) (XVar 34))];
Let 101 (XBin (XVar 35) (XNum));
block [
Let 102 (XBin (XVar 40) (XBin (XBin (XNum) (XVar 23)) (XBin (XVar 101) (XVar 21))))];
Store 25 [Sl (BNone) (BNone) (SOne); Sl (BIx (IC 1)) (BIx (IC 3)) (SOne)] (XVar 102);
Let 103 (XSel (XVar 2) [Sl (BNone) (BNone) (SOne); Sl (BIx (IC 1)) (BNone) (SBy (IC 2))]);
Let 104 (XSel (XVar 19) [Sl (BNone) (BNone) (SOne); Sl (BNone) (BNone) (SBy (IC 2))]);
Let 105 (XSel (XVar 18) [Sl (BNone) (BNone) (SOne); Sl (BNone) (BNone) (SBy (IC 2))]);
Let 106 (XSel (XVar 22) [Sl (BNone) (BNone) (SOne); Sl (BNone) (BNone) (SBy (IC 2))]);
block [
Store 104 [Sl (BNone) (BNone) (SOne)] (XBin (XVar 13) (XSel (XVar 11) [Sl (BIx (IC 1)) (BEnd 1) (SOne)]));
Store 105 [Sl (BNone) (BNone) (SOne)] (XBin (XVar 39) (XVar 104));
Store 106 [Sl (BNone) (BNone) (SOne)] (XBin (XSel (XVar 11) [Sl (BIx (IC 1)) (BEnd 1) (SOne)]) (XSel (XVar 103) [Sl (BIx (IC 1)) (BEnd 1) (SOne)]))];
Let 107 (XSel (XVar 2) [Sl (BIx (IC 1)) (BEnd 1) (SOne); At (IC 2)]);
Let 108 (XSel (XVar 22) [Sl (BNone) (BNone) (SOne); At (IC 1)]);
block [
Store 108 [Sl (BNone) (BNone) (SOne)] (XBin (XVar 20) (XVar 107))];
Let 109 (XSel (XVar 2) [Sl (BIx (IC 1)) (BEnd 1) (SOne); Sl (BIx (IC 1)) (BEnd 1) (SOne)]);
block [
Let 110 (XLike (XVar 29));
For 111 (ISize 30)
(block [
Let 112 (XSel (XVar 5) [At (IElem 30 (IV 111))]);
LetInt 113 (IElem 29 (IV 111));
StoreFlat 3 (IV 111) (XVar 112);
block [
Let 114 (XBin (XBin (XBin (XBin (XNum) (XBin (XNum) (XVar 112))) (XBin (XNum) (XBin (XVar 112) (XNum)))) (XBin (XNum) (XBin (XVar 112) (XNum)))) (XBin (XNum) (XBin (XVar 112) (XNum))))];
StoreFlat 16 (IV 111) (XVar 114);
block [
Let 115 (XBin (XBin (XBin (XNum) (XBin (XNum) (XVar 112))) (XBin (XNum) (XBin (XVar 112) (XNum)))) (XBin (XNum) (XBin (XVar 112) (XNum))))];
StoreFlat 17 (IV 111) (XVar 115);
StoreFlat 27 (IV 111) (XBin (XBin (XSel (XVar 41) [At (IV 111)]) (XBin (XBin (XSel (XVar 32) [At (IV 111)]) (XBin (XNum) (XSel (XVar 17) [At (IV 111)]))) (XBin (XVar 31) (XBin (XNum) (XNum))))) (XSel (XVar 28) [At (IV 111)]));
StoreFlat 110 (IV 111) (XBin (XBin (XFlat (XVar 27) (IV 111)) (XBin (XVar 112) (XFlat (XVar 109) (IV 113)))) (XFlat (XVar 18) (IV 113)))]);
Let 116 (XVar 110)];
Let 117 (XVar 116);
Let 118 (XVar 47);
block [
Let 119 (XNew [IC 3]);
Let 120 (XRed true (XVar 19));
Store 119 [At (IC 0)] (XBin (XBin (XBin (XRed true (XVar 24)) (XVar 120)) (XVar 1)) (XBin (XVar 38) (XVar 31)));
Store 119 [At (IC 1)] (XBin (XBin (XBin (XRed true (XVar 25)) (XVar 120)) (XVar 1)) (XBin (XVar 40) (XVar 31)));
Store 119 [At (IC 2)] (XBin (XBin (XRed true (XBin (XVar 27) (XBin (XVar 41) (XVar 33)))) (XVar 120)) (XVar 1));
Let 121 (XRed true (XVar 119));
Let 122 (XBin (XVar 39) (XRed true (XVar 13)));
Let 123 (XBin (XBin (XRed true (XVar 60)) (XVar 1)) (XVar 122));
Let 124 (XBin (XVar 121) (XNum));
Let 125 (XBin (XVar 123) (XNum));
Let 126 (XBin (XVar 124) (XVar 125));
If (XBin (XVar 126) (XNum))
(block [
If (XNum)
(block [
Store 45 [At (IC 0)] (XNum);
Store 118 [] (XNum);
Let 127 (XBin (XBin (XVar 1) (XVar 126)) (XNum));
If (XBin (XSel (XVar 48) [At (IC 0)]) (XVar 127))
(block [
Store 48 [At (IC 0)] (XVar 127)])
(Skip);
If (XBin (XSel (XVar 49) [At (IC 0)]) (XNum))
(block [
Store 49 [At (IC 0)] (XBin (XSel (XVar 49) [At (IC 0)]) (XNum));
If (XBin (XSel (XVar 49) [At (IC 0)]) (XNum))
(block [
Store 49 [At (IC 0)] (XNum)])
(Skip)])
(Skip)])
(block [
Raise])])
(Skip);
Let 128 (XVar 45);
Let 129 (XVar 48);
Let 130 (XVar 49)];
Let 131 (XVar 128);
Let 132 (XVar 129);
Let 133 (XVar 130);
Let 134 (XNum);
Store 51 [Sl (BNone) (BNone) (SOne)] (XBin (XBin (XBin (XBin (XBin (XBin (XSel (XVar 24) [Sl (BNone) (BEnd 1) (SOne)]) (XBin (XSel (XVar 2) [Sl (BNone) (BEnd 2) (SOne); Sl (BIx (IC 1)) (BEnd 1) (SOne)]) (XSel (XVar 2) [Sl (BIx (IC 1)) (BEnd 1) (SOne); Sl (BIx (IC 1)) (BEnd 1) (SOne)]))) (XBin (XSel (XVar 24) [Sl (BIx (IC 1)) (BNone) (SOne)]) (XBin (XSel (XVar 2) [Sl (BIx (IC 2)) (BNone) (SOne); Sl (BIx (IC 1)) (BEnd 1) (SOne)]) (XSel (XVar 2) [Sl (BIx (IC 1)) (BEnd 1) (SOne); Sl (BIx (IC 1)) (BEnd 1) (SOne)])))) (XBin (XSel (XVar 25) [Sl (BNone) (BNone) (SOne); Sl (BNone) (BEnd 1) (SOne)]) (XBin (XSel (XVar 2) [Sl (BIx (IC 1)) (BEnd 1) (SOne); Sl (BNone) (BEnd 2) (SOne)]) (XSel (XVar 2) [Sl (BIx (IC 1)) (BEnd 1) (SOne); Sl (BIx (IC 1)) (BEnd 1) (SOne)])))) (XBin (XSel (XVar 25) [Sl (BNone) (BNone) (SOne); Sl (BIx (IC 1)) (BNone) (SOne)]) (XBin (XSel (XVar 2) [Sl (BIx (IC 1)) (BEnd 1) (SOne); Sl (BIx (IC 2)) (BNone) (SOne)]) (XSel (XVar 2) [Sl (BIx (IC 1)) (BEnd 1) (SOne); Sl (BIx (IC 1)) (BEnd 1) (SOne)])))) (XBin (XVar 134) (XBin (XVar 4) (XSel (XVar 2) [Sl (BIx (IC 1)) (BEnd 1) (SOne); Sl (BIx (IC 1)) (BEnd 1) (SOne)])))) (XVar 18));
Store 52 [Sl (BNone) (BNone) (SOne); Sl (BNone) (BNone) (SBy (IC 2))] (XBin (XBin (XBin (XVar 7) (XBin (XBin (XSel (XVar 11) [Sl (BNone) (BEnd 2) (SOne)]) (XSel (XVar 2) [Sl (BNone) (BEnd 2) (SOne); Sl (BIx (IC 1)) (BNone) (SBy (IC 2))])) (XSel (XVar 22) [Sl (BNone) (BNone) (SOne); Sl (BNone) (BNone) (SBy (IC 2))]))) (XBin (XVar 8) (XBin (XBin (XSel (XVar 11) [Sl (BIx (IC 2)) (BNone) (SOne)]) (XSel (XVar 2) [Sl (BIx (IC 2)) (BNone) (SOne); Sl (BIx (IC 1)) (BNone) (SBy (IC 2))])) (XSel (XVar 22) [Sl (BNone) (BNone) (SOne); Sl (BNone) (BNone) (SBy (IC 2))])))) (XSel (XVar 18) [Sl (BNone) (BNone) (SOne); Sl (BNone) (BNone) (SBy (IC 2))]));
For 135 (ISize 29)
(block [
LetInt 136 (IElem 29 (IV 135));
StoreFlat 51 (IV 136) (XSel (XVar 117) [At (IV 135)]);
StoreFlat 52 (IV 136) (XBin (XBin (XSel (XVar 9) [At (IV 135)]) (XBin (XBin (XSel (XVar 16) [At (IV 135)]) (XSel (XVar 3) [At (IV 135)])) (XFlat (XVar 22) (IV 136)))) (XFlat (XVar 18) (IV 136)))]);
Store 52 [Sl (BNone) (BNone) (SOne); Sl (BNone) (BNone) (SBy (IC 2))] (XVar 42);
Store 53 [Sl (BNone) (BNone) (SOne)] (XBin (XVar 51) (XVar 52));
Let 137 (XVar 53)];
Let 138 (XVar 53)]).

Definition methods : list method := [m_Pipe; m_PipeBranched; m_PipeWithValve; m_HeatedPipe; m_CHPPlant; m_TES; m_HexNum; m_HexNumImpl; m_HeatExchanger; m_MixingValve; m_Pump].

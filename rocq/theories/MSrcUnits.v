(** * Programs of the compiled functions. Generated by /verif/tools/extract_units.py from the text of
    /repo/multisim/precomp_funs.py; do not edit. *)
From Coq Require Import ZArith QArith List String.
From Verif Require Import MUnits.
Import ListNotations.
Local Open Scope Z_scope.
Local Open Scope positive_scope.
Local Open Scope string_scope.

(** multisim/precomp_funs.py 66 *)
Definition f__port_values_to_idx : func := mkF "_port_values_to_idx" 66
  [("ports_all", 1); ("port_link_idx", 2); ("port_own_idx", 3); ("out", 4)]
  []
  [(1, (mkU 0 0 0 2)); (4, (mkU 0 0 0 2))]
  (block [
   For 5 6 (Cons (Fn 1 Nil) Nil)
    (block [
     Store 4 4 (Cons (Sel 5 (Var 3) (Cons (Var 5) Nil)) Nil) (Sel 2 (Var 1) (Cons (Sel 3 (Var 2) (Cons (Var 5) Nil)) Nil))])]).
(** multisim/precomp_funs.py 77 *)
Definition f__port_values_to_cont : func := mkF "_port_values_to_cont" 77
  [("ports_all", 1); ("port_link_idx", 2); ("out", 3)]
  []
  [(1, (mkU 0 0 0 2)); (3, (mkU 0 0 0 2))]
  (block [
   For 4 5 (Cons (Fn 1 Nil) Nil)
    (block [
     Store 3 4 (Cons (Var 4) Nil) (Sel 2 (Var 1) (Cons (Sel 3 (Var 2) (Cons (Var 4) Nil)) Nil))])]).
(** multisim/precomp_funs.py 88 *)
Definition f__process_flow_invar : func := mkF "_process_flow_invar" 88
  [("process_flows", 1); ("dm_io", 2); ("dm_top", 3); ("dm_bot", 4); ("dm_port", 5); ("stepnum", 6); ("res_dm", 7)]
  [8]
  [(2, (mkU 0 2 (-2) 0)); (3, (mkU 0 2 (-2) 0)); (4, (mkU 0 2 (-2) 0)); (5, (mkU 0 2 (-2) 0)); (7, (mkU 0 2 (-2) 0))]
  (block [
   If (Sel 1 (Var 1) Nil)
    (block [
     If (Cmp Ge (Sel 2 (Var 2) Nil) (Const (0 # 1) (mkU 0 2 (-2) 0)))
      (block [
       Store 3 4 Nil (Sel 3 (Var 2) Nil);
       Store 4 5 Nil (Const (0 # 1) (mkU 0 2 (-2) 0))])
      (block [
       Store 4 7 Nil (Neg (Sel 6 (Var 2) Nil));
       Store 3 8 Nil (Const (0 # 1) (mkU 0 2 (-2) 0))]);
     If (Cmp Ge (Sel 9 (Var 2) Nil) (Const (0 # 1) (mkU 0 2 (-2) 0)))
      (block [
       Store 5 11 Nil (Sel 10 (Var 2) Nil);
       Store 5 12 Nil (Const (0 # 1) (mkU 0 2 (-2) 0))])
      (block [
       Store 5 14 Nil (Neg (Sel 13 (Var 2) Nil));
       Store 5 15 Nil (Const (0 # 1) (mkU 0 2 (-2) 0))]);
     Store 7 17 (Cons (Sel 18 (Var 6) Nil) Nil) (Sel 16 (Var 2) Nil)])
    Skip;
   Let 8 (Const (0 # 1) none);
   Return]).
(** multisim/precomp_funs.py 122 *)
Definition f__process_flow_invar_fast : func := mkF "_process_flow_invar_fast" 122
  [("process_flows", 1); ("dm_io", 2); ("dm_top", 3); ("dm_bot", 4); ("stepnum", 5); ("res_dm", 6)]
  [8; 9]
  [(2, (mkU 0 2 (-2) 0)); (3, (mkU 0 2 (-2) 0)); (4, (mkU 0 2 (-2) 0)); (6, (mkU 0 2 (-2) 0)); (7, (mkU 0 2 (-2) 0)); (9, (mkU 0 2 (-2) 0))]
  (block [
   If (Sel 1 (Var 1) Nil)
    (block [
     Let 7 (Const (0 # 1) (mkU 0 2 (-2) 0));
     If (Cmp Ge (Sel 2 (Var 2) Nil) (Const (0 # 1) (mkU 0 2 (-2) 0)))
      (block [
       Store 3 4 Nil (Sel 3 (Var 2) Nil);
       Store 4 5 Nil (Const (0 # 1) (mkU 0 2 (-2) 0))])
      (block [
       Store 4 7 Nil (Neg (Sel 6 (Var 2) Nil));
       Store 3 8 Nil (Const (0 # 1) (mkU 0 2 (-2) 0))]);
     If (Cmp Ge (Sel 9 (Var 2) Nil) (Const (0 # 1) (mkU 0 2 (-2) 0)))
      (block [
       Store 7 11 Nil (Sel 10 (Var 2) Nil);
       Store 7 12 Nil (Const (0 # 1) (mkU 0 2 (-2) 0))])
      (block [
       Store 7 14 Nil (Neg (Sel 13 (Var 2) Nil));
       Store 7 15 Nil (Const (0 # 1) (mkU 0 2 (-2) 0))]);
     Store 6 17 (Cons (Sel 18 (Var 5) Nil) Nil) (Sel 16 (Var 2) Nil)])
    Skip;
   Let 8 (Const (0 # 1) none);
   View 9 7 19 Nil;
   Return]).
(** multisim/precomp_funs.py 159 *)
Definition f__process_flow_var : func := mkF "_process_flow_var" 159
  [("process_flows", 1); ("dm_io", 2); ("dm", 3); ("dm_top", 4); ("dm_bot", 5); ("dm_port", 6); ("port_own_idx", 7); ("stepnum", 8); ("res_dm", 9)]
  [13]
  [(2, (mkU 0 2 (-2) 0)); (3, (mkU 0 2 (-2) 0)); (4, (mkU 0 2 (-2) 0)); (5, (mkU 0 2 (-2) 0)); (6, (mkU 0 2 (-2) 0)); (9, (mkU 0 2 (-2) 0)); (10, (mkU 0 2 (-2) 0)); (12, (mkU 0 2 (-2) 0))]
  (block [
   If (Sel 1 (Var 1) Nil)
    (block [
     Store 3 2 Nil (Const (0 # 1) (mkU 0 2 (-2) 0));
     Let 10 (Red Sum 3 (Var 2));
     For 11 12 (Cons (Sub (Fn 4 Nil) (Const (1 # 1) none)) Nil)
      (block [
       Store 3 9 (Cons (Sel 10 (Var 7) (Cons (Var 11) Nil)) (Cons (Sel 11 (Var 7) (Cons (Add (Var 11) (Const (1 # 1) none)) Nil)) Nil)) (Add (Sel 5 (Var 3) (Cons (Sel 6 (Var 7) (Cons (Var 11) Nil)) (Cons (Sel 7 (Var 7) (Cons (Add (Var 11) (Const (1 # 1) none)) Nil)) Nil))) (Sel 8 (Var 10) (Cons (Var 11) Nil)))]);
     Store 6 13 Nil (Var 2);
     Store 4 15 Nil (Sel 14 (Var 3) Nil);
     Store 5 17 Nil (Neg (Sel 16 (Var 3) Nil));
     Store 4 18 (Cons (Cmp Lt (Var 4) (Const (0 # 1) (mkU 0 2 (-2) 0))) Nil) (Const (0 # 1) (mkU 0 2 (-2) 0));
     Store 5 19 (Cons (Cmp Lt (Var 5) (Const (0 # 1) (mkU 0 2 (-2) 0))) Nil) (Const (0 # 1) (mkU 0 2 (-2) 0));
     View 12 6 20 Nil;
     Store 12 21 (Cons (Cmp Lt (Var 12) (Const (0 # 1) (mkU 0 2 (-2) 0))) Nil) (Const (0 # 1) (mkU 0 2 (-2) 0));
     Store 3 23 Nil (Sel 22 (Var 3) Nil);
     Store 9 24 (Cons (Sel 25 (Var 8) Nil) Nil) (Var 3)])
    Skip;
   Let 13 (Const (0 # 1) none);
   Return]).
(** multisim/precomp_funs.py 209 *)
Definition f__process_flow_multi_flow : func := mkF "_process_flow_multi_flow" 209
  [("process_flows", 1); ("dm_io", 2); ("dm_top", 3); ("dm_bot", 4); ("dm_port", 5); ("stepnum", 6); ("res_dm", 7)]
  [9]
  [(2, (mkU 0 2 (-2) 0)); (3, (mkU 0 2 (-2) 0)); (4, (mkU 0 2 (-2) 0)); (5, (mkU 0 2 (-2) 0)); (7, (mkU 0 2 (-2) 0))]
  (block [
   If (Sel 1 (Var 1) Nil)
    (block [
     For 8 16 (Cons (Fn 2 Nil) Nil)
      (block [
       If (Cmp Ge (Sel 3 (Var 2) (Cons (Var 8) Nil)) (Const (0 # 1) (mkU 0 2 (-2) 0)))
        (block [
         Store 3 5 (Cons (Var 8) Nil) (Sel 4 (Var 2) (Cons (Var 8) Nil));
         Store 4 6 (Cons (Var 8) Nil) (Const (0 # 1) (mkU 0 2 (-2) 0));
         Store 5 8 (Cons (Mul (Var 8) (Const (2 # 1) none)) Nil) (Sel 7 (Var 2) (Cons (Var 8) Nil));
         Store 5 9 (Cons (Add (Mul (Var 8) (Const (2 # 1) none)) (Const (1 # 1) none)) Nil) (Const (0 # 1) (mkU 0 2 (-2) 0))])
        (block [
         Store 4 11 (Cons (Var 8) Nil) (Neg (Sel 10 (Var 2) (Cons (Var 8) Nil)));
         Store 3 12 (Cons (Var 8) Nil) (Const (0 # 1) (mkU 0 2 (-2) 0));
         Store 5 13 (Cons (Mul (Var 8) (Const (2 # 1) none)) Nil) (Const (0 # 1) (mkU 0 2 (-2) 0));
         Store 5 15 (Cons (Add (Mul (Var 8) (Const (2 # 1) none)) (Const (1 # 1) none)) Nil) (Neg (Sel 14 (Var 2) (Cons (Var 8) Nil)))])]);
     Store 7 17 (Cons (Sel 18 (Var 6) Nil) Nil) (Var 2)])
    Skip;
   Let 9 (Const (0 # 1) none);
   Return]).
(** multisim/precomp_funs.py 250 *)
Definition f__process_ports_collapsed : func := mkF "_process_ports_collapsed" 250
  [("ports_all", 1); ("port_link_idx", 2); ("port_own_idx", 3); ("T", 4); ("mcp", 5); ("UA_port", 6); ("UA_port_wll", 7); ("A_p_fld_mean", 8); ("port_gsp", 9); ("grid_spacing", 10); ("lam_T", 11); ("cp_port", 12); ("lam_port_fld", 13); ("T_port", 14)]
  [23]
  [(1, (mkU 0 0 0 2)); (4, (mkU 0 0 0 2)); (5, (mkU 4 2 (-4) (-2))); (6, (mkU 4 2 (-6) (-2))); (7, (mkU 4 2 (-6) (-2))); (8, (mkU 4 0 0 0)); (9, (mkU 2 0 0 0)); (10, (mkU 2 0 0 0)); (11, (mkU 2 2 (-6) (-2))); (12, (mkU 4 0 (-4) (-2))); (13, (mkU 2 2 (-6) (-2))); (14, (mkU 0 0 0 2)); (15, (mkU 0 0 (-2) 2)); (17, (mkU 0 0 0 2)); (19, (mkU 0 0 0 2)); (20, (mkU 4 0 (-4) (-2))); (21, (mkU 0 0 0 2)); (22, (mkU 2 2 (-6) (-2))); (23, (mkU 0 0 (-2) 2))]
  (block [
   Let 15 (Const (0 # 1) (mkU 0 0 (-2) 2));
   For 16 21 (Cons (Fn 2 Nil) Nil)
    (block [
     View 17 1 3 (Cons (Sel 4 (Var 2) (Cons (Var 16) Nil)) Nil);
     View 18 3 5 (Cons (Var 16) Nil);
     Store 14 6 (Cons (Var 16) Nil) (Var 17);
     View 19 17 7 Nil;
     Frame
      (block [
       Let 20 (Add (Sub (Add (Sub (Const (5269252946772499 # 1250000000000) (mkU 4 0 (-4) (-2))) (Mul (Const (7213485820879837 # 2500000000000000) (mkU 4 0 (-4) (-4))) (Var 19))) (Mul (Const (468161292800073 # 6250000000000000) (mkU 4 0 (-4) (-6))) (Pow (Var 19) 2))) (Mul (Const (77807143441700321 # 100000000000000000000) (mkU 4 0 (-4) (-8))) (Pow (Var 19) 3))) (Mul (Const (501708265162663 # 156250000000000000000) (mkU 4 0 (-4) (-10))) (Pow (Var 19) 4)));
       Return]);
     Store 12 8 (Cons (Var 16) Nil) (Var 20);
     View 21 17 9 Nil;
     Frame
      (block [
       Let 22 (Sub (Sub (Add (Const (56987912853229539 # 100000000000000000) (mkU 2 2 (-6) (-2))) (Mul (Const (8939185201272869 # 5000000000000000000) (mkU 2 2 (-6) (-4))) (Var 21))) (Mul (Const (11999643454775959 # 2000000000000000000000) (mkU 2 2 (-6) (-6))) (Pow (Var 21) 2))) (Mul (Const (86964577115093407 # 10000000000000000000000000) (mkU 2 2 (-6) (-8))) (Pow (Var 21) 3)));
       Return]);
     Store 13 10 (Cons (Var 16) Nil) (Var 22);
     Store 6 16 (Cons (Var 16) Nil) (Add (Div (Sel 11 (Var 8) (Cons (Var 16) Nil)) (Add (Div (Sel 12 (Var 9) (Cons (Var 16) Nil)) (Mul (Const (2 # 1) none) (Sel 13 (Var 13) (Cons (Var 16) Nil)))) (Div (Var 10) (Mul (Const (2 # 1) none) (Sel 14 (Var 11) (Cons (Var 18) Nil)))))) (Sel 15 (Var 7) (Cons (Var 16) Nil)));
     Store 15 20 (Cons (Var 16) Nil) (Div (Mul (Sel 17 (Var 6) (Cons (Var 16) Nil)) (Sub (Var 17) (Sel 18 (Var 4) (Cons (Var 18) Nil)))) (Sel 19 (Var 5) (Cons (Var 18) Nil)))]);
   View 23 15 22 Nil;
   Return]).
(** multisim/precomp_funs.py 301 *)
Definition f__process_ports : func := mkF "_process_ports" 301
  [("ports_all", 1); ("port_link_idx", 2); ("port_own_idx", 3); ("T", 4); ("mcp", 5); ("UA_port", 6); ("UA_port_wll", 7); ("A_p_fld_mean", 8); ("port_gsp", 9); ("grid_spacing", 10); ("lam_T", 11); ("cp_port", 12); ("lam_port_fld", 13); ("T_port", 14)]
  [23]
  [(1, (mkU 0 0 0 2)); (4, (mkU 0 0 0 2)); (5, (mkU 4 2 (-4) (-2))); (6, (mkU 4 2 (-6) (-2))); (7, (mkU 4 2 (-6) (-2))); (8, (mkU 4 0 0 0)); (9, (mkU 2 0 0 0)); (10, (mkU 2 0 0 0)); (11, (mkU 2 2 (-6) (-2))); (12, (mkU 4 0 (-4) (-2))); (13, (mkU 2 2 (-6) (-2))); (14, (mkU 0 0 0 2)); (15, (mkU 0 0 (-2) 2)); (17, (mkU 0 0 0 2)); (19, (mkU 0 0 0 2)); (20, (mkU 4 0 (-4) (-2))); (21, (mkU 0 0 0 2)); (22, (mkU 2 2 (-6) (-2))); (23, (mkU 0 0 (-2) 2))]
  (block [
   Let 15 (Const (0 # 1) (mkU 0 0 (-2) 2));
   For 16 21 (Cons (Fn 2 Nil) Nil)
    (block [
     View 17 1 3 (Cons (Sel 4 (Var 2) (Cons (Var 16) Nil)) Nil);
     View 18 3 5 (Cons (Var 16) Nil);
     Store 14 6 (Cons (Var 18) Nil) (Var 17);
     View 19 17 7 Nil;
     Frame
      (block [
       Let 20 (Add (Sub (Add (Sub (Const (5269252946772499 # 1250000000000) (mkU 4 0 (-4) (-2))) (Mul (Const (7213485820879837 # 2500000000000000) (mkU 4 0 (-4) (-4))) (Var 19))) (Mul (Const (468161292800073 # 6250000000000000) (mkU 4 0 (-4) (-6))) (Pow (Var 19) 2))) (Mul (Const (77807143441700321 # 100000000000000000000) (mkU 4 0 (-4) (-8))) (Pow (Var 19) 3))) (Mul (Const (501708265162663 # 156250000000000000000) (mkU 4 0 (-4) (-10))) (Pow (Var 19) 4)));
       Return]);
     Store 12 8 (Cons (Var 18) Nil) (Var 20);
     View 21 17 9 Nil;
     Frame
      (block [
       Let 22 (Sub (Sub (Add (Const (56987912853229539 # 100000000000000000) (mkU 2 2 (-6) (-2))) (Mul (Const (8939185201272869 # 5000000000000000000) (mkU 2 2 (-6) (-4))) (Var 21))) (Mul (Const (11999643454775959 # 2000000000000000000000) (mkU 2 2 (-6) (-6))) (Pow (Var 21) 2))) (Mul (Const (86964577115093407 # 10000000000000000000000000) (mkU 2 2 (-6) (-8))) (Pow (Var 21) 3)));
       Return]);
     Store 13 10 (Cons (Var 18) Nil) (Var 22);
     Store 6 16 (Cons (Var 18) Nil) (Add (Div (Sel 11 (Var 8) (Cons (Var 18) Nil)) (Add (Div (Sel 12 (Var 9) (Cons (Var 18) Nil)) (Mul (Const (2 # 1) none) (Sel 13 (Var 13) (Cons (Var 18) Nil)))) (Div (Var 10) (Mul (Const (2 # 1) none) (Sel 14 (Var 11) (Cons (Var 18) Nil)))))) (Sel 15 (Var 7) (Cons (Var 18) Nil)));
     Store 15 20 (Cons (Var 16) Nil) (Div (Mul (Sel 17 (Var 6) (Cons (Var 18) Nil)) (Sub (Var 17) (Sel 18 (Var 4) (Cons (Var 18) Nil)))) (Sel 19 (Var 5) (Cons (Var 18) Nil)))]);
   View 23 15 22 Nil;
   Return]).
(** multisim/precomp_funs.py 350 *)
Definition f_water_mat_props_ext_view : func := mkF "water_mat_props_ext_view" 350
  [("T_ext", 1); ("cp_T", 2); ("lam_T", 3); ("rho_T", 4); ("ny_T", 5)]
  []
  [(1, (mkU 0 0 0 2)); (2, (mkU 4 0 (-4) (-2))); (3, (mkU 2 2 (-6) (-2))); (4, (mkU (-6) 2 0 0)); (5, (mkU 4 0 (-2) 0)); (6, (mkU 0 0 0 2)); (7, (mkU 4 0 (-4) (-2))); (8, (mkU 0 0 0 2)); (9, (mkU 2 2 (-6) (-2))); (10, (mkU 0 0 0 2)); (11, (mkU (-6) 2 0 0)); (12, (mkU 0 0 0 2)); (13, (mkU 4 0 (-2) 0))]
  (block [
   View 6 1 1 Nil;
   View 7 2 2 Nil;
   Frame
    (block [
     Store 7 3 Nil (Add (Sub (Add (Sub (Const (5269252946772499 # 1250000000000) (mkU 4 0 (-4) (-2))) (Mul (Const (7213485820879837 # 2500000000000000) (mkU 4 0 (-4) (-4))) (Var 6))) (Mul (Const (468161292800073 # 6250000000000000) (mkU 4 0 (-4) (-6))) (Pow (Var 6) 2))) (Mul (Const (77807143441700321 # 100000000000000000000) (mkU 4 0 (-4) (-8))) (Pow (Var 6) 3))) (Mul (Const (501708265162663 # 156250000000000000000) (mkU 4 0 (-4) (-10))) (Pow (Var 6) 4)))]);
   View 8 1 4 Nil;
   View 9 3 5 Nil;
   Frame
    (block [
     Store 9 6 Nil (Sub (Sub (Add (Const (56987912853229539 # 100000000000000000) (mkU 2 2 (-6) (-2))) (Mul (Const (8939185201272869 # 5000000000000000000) (mkU 2 2 (-6) (-4))) (Var 8))) (Mul (Const (11999643454775959 # 2000000000000000000000) (mkU 2 2 (-6) (-6))) (Pow (Var 8) 2))) (Mul (Const (86964577115093407 # 10000000000000000000000000) (mkU 2 2 (-6) (-8))) (Pow (Var 8) 3)))]);
   View 10 1 7 Nil;
   View 11 4 8 Nil;
   Frame
    (block [
     Store 11 9 Nil (Sub (Add (Sub (Add (Const (99988785713136213 # 100000000000000) (mkU (-6) 2 0 0)) (Mul (Const (24802227495264801 # 500000000000000000) (mkU (-6) 2 0 (-2))) (Var 10))) (Mul (Const (74722666453460717 # 10000000000000000000) (mkU (-6) 2 0 (-4))) (Pow (Var 10) 2))) (Mul (Const (10273621109538621 # 250000000000000000000) (mkU (-6) 2 0 (-6))) (Pow (Var 10) 3))) (Mul (Const (6457894773161807 # 50000000000000000000000) (mkU (-6) 2 0 (-8))) (Pow (Var 10) 4)))]);
   View 12 1 10 Nil;
   View 13 5 11 Nil;
   Frame
    (block [
     Store 13 12 Nil (Add (Sub (Add (Sub (Const (3552894676098831 # 2000000000000000000000) (mkU 4 0 (-2) 0)) (Mul (Const (13910068945316351 # 250000000000000000000000) (mkU 4 0 (-2) (-2))) (Var 12))) (Mul (Const (5121536443747213 # 5000000000000000000000000) (mkU 4 0 (-2) (-4))) (Pow (Var 12) 2))) (Mul (Const (19590892027396233 # 2000000000000000000000000000) (mkU 4 0 (-2) (-6))) (Pow (Var 12) 3))) (Mul (Const (9115117186265681 # 250000000000000000000000000000) (mkU 4 0 (-2) (-8))) (Pow (Var 12) 4)))])]).
(** multisim/precomp_funs.py 367 *)
Definition f_water_mat_props_ext : func := mkF "water_mat_props_ext" 367
  [("T_ext", 1)]
  [2; 3; 4; 5]
  [(1, (mkU 0 0 0 2)); (2, (mkU 4 0 (-4) (-2))); (3, (mkU 2 2 (-6) (-2))); (4, (mkU (-6) 2 0 0)); (5, (mkU 4 0 (-2) 0)); (6, (mkU 0 0 0 2)); (7, (mkU 4 0 (-4) (-2))); (8, (mkU 0 0 0 2)); (9, (mkU 2 2 (-6) (-2))); (10, (mkU 0 0 0 2)); (11, (mkU (-6) 2 0 0)); (12, (mkU 0 0 0 2)); (13, (mkU 4 0 (-2) 0))]
  (block [
   View 6 1 1 Nil;
   Frame
    (block [
     Let 7 (Add (Sub (Add (Sub (Const (5269252946772499 # 1250000000000) (mkU 4 0 (-4) (-2))) (Mul (Const (7213485820879837 # 2500000000000000) (mkU 4 0 (-4) (-4))) (Var 6))) (Mul (Const (468161292800073 # 6250000000000000) (mkU 4 0 (-4) (-6))) (Pow (Var 6) 2))) (Mul (Const (77807143441700321 # 100000000000000000000) (mkU 4 0 (-4) (-8))) (Pow (Var 6) 3))) (Mul (Const (501708265162663 # 156250000000000000000) (mkU 4 0 (-4) (-10))) (Pow (Var 6) 4)));
     Return]);
   View 2 7 2 Nil;
   View 8 1 3 Nil;
   Frame
    (block [
     Let 9 (Sub (Sub (Add (Const (56987912853229539 # 100000000000000000) (mkU 2 2 (-6) (-2))) (Mul (Const (8939185201272869 # 5000000000000000000) (mkU 2 2 (-6) (-4))) (Var 8))) (Mul (Const (11999643454775959 # 2000000000000000000000) (mkU 2 2 (-6) (-6))) (Pow (Var 8) 2))) (Mul (Const (86964577115093407 # 10000000000000000000000000) (mkU 2 2 (-6) (-8))) (Pow (Var 8) 3)));
     Return]);
   View 3 9 4 Nil;
   View 10 1 5 Nil;
   Frame
    (block [
     Let 11 (Sub (Add (Sub (Add (Const (99988785713136213 # 100000000000000) (mkU (-6) 2 0 0)) (Mul (Const (24802227495264801 # 500000000000000000) (mkU (-6) 2 0 (-2))) (Var 10))) (Mul (Const (74722666453460717 # 10000000000000000000) (mkU (-6) 2 0 (-4))) (Pow (Var 10) 2))) (Mul (Const (10273621109538621 # 250000000000000000000) (mkU (-6) 2 0 (-6))) (Pow (Var 10) 3))) (Mul (Const (6457894773161807 # 50000000000000000000000) (mkU (-6) 2 0 (-8))) (Pow (Var 10) 4)));
     Return]);
   View 4 11 6 Nil;
   View 12 1 7 Nil;
   Frame
    (block [
     Let 13 (Add (Sub (Add (Sub (Const (3552894676098831 # 2000000000000000000000) (mkU 4 0 (-2) 0)) (Mul (Const (13910068945316351 # 250000000000000000000000) (mkU 4 0 (-2) (-2))) (Var 12))) (Mul (Const (5121536443747213 # 5000000000000000000000000) (mkU 4 0 (-2) (-4))) (Pow (Var 12) 2))) (Mul (Const (19590892027396233 # 2000000000000000000000000000) (mkU 4 0 (-2) (-6))) (Pow (Var 12) 3))) (Mul (Const (9115117186265681 # 250000000000000000000000000000) (mkU 4 0 (-2) (-8))) (Pow (Var 12) 4)));
     Return]);
   View 5 13 8 Nil;
   Return]).
(** multisim/precomp_funs.py 387 *)
Definition f_water_mat_props : func := mkF "water_mat_props" 387
  [("T", 1); ("cp_T", 2); ("lam_T", 3); ("rho_T", 4); ("ny_T", 5)]
  []
  [(1, (mkU 0 0 0 2)); (2, (mkU 4 0 (-4) (-2))); (3, (mkU 2 2 (-6) (-2))); (4, (mkU (-6) 2 0 0)); (5, (mkU 4 0 (-2) 0)); (6, (mkU 0 0 0 2)); (7, (mkU 4 0 (-4) (-2))); (8, (mkU 0 0 0 2)); (9, (mkU 2 2 (-6) (-2))); (10, (mkU 0 0 0 2)); (11, (mkU (-6) 2 0 0)); (12, (mkU 0 0 0 2)); (13, (mkU 4 0 (-2) 0))]
  (block [
   View 6 1 1 Nil;
   View 7 2 2 Nil;
   Frame
    (block [
     Store 7 3 Nil (Add (Sub (Add (Sub (Const (5269252946772499 # 1250000000000) (mkU 4 0 (-4) (-2))) (Mul (Const (7213485820879837 # 2500000000000000) (mkU 4 0 (-4) (-4))) (Var 6))) (Mul (Const (468161292800073 # 6250000000000000) (mkU 4 0 (-4) (-6))) (Pow (Var 6) 2))) (Mul (Const (77807143441700321 # 100000000000000000000) (mkU 4 0 (-4) (-8))) (Pow (Var 6) 3))) (Mul (Const (501708265162663 # 156250000000000000000) (mkU 4 0 (-4) (-10))) (Pow (Var 6) 4)))]);
   View 8 1 4 Nil;
   View 9 3 5 Nil;
   Frame
    (block [
     Store 9 6 Nil (Sub (Sub (Add (Const (56987912853229539 # 100000000000000000) (mkU 2 2 (-6) (-2))) (Mul (Const (8939185201272869 # 5000000000000000000) (mkU 2 2 (-6) (-4))) (Var 8))) (Mul (Const (11999643454775959 # 2000000000000000000000) (mkU 2 2 (-6) (-6))) (Pow (Var 8) 2))) (Mul (Const (86964577115093407 # 10000000000000000000000000) (mkU 2 2 (-6) (-8))) (Pow (Var 8) 3)))]);
   View 10 1 7 Nil;
   View 11 4 8 Nil;
   Frame
    (block [
     Store 11 9 Nil (Sub (Add (Sub (Add (Const (99988785713136213 # 100000000000000) (mkU (-6) 2 0 0)) (Mul (Const (24802227495264801 # 500000000000000000) (mkU (-6) 2 0 (-2))) (Var 10))) (Mul (Const (74722666453460717 # 10000000000000000000) (mkU (-6) 2 0 (-4))) (Pow (Var 10) 2))) (Mul (Const (10273621109538621 # 250000000000000000000) (mkU (-6) 2 0 (-6))) (Pow (Var 10) 3))) (Mul (Const (6457894773161807 # 50000000000000000000000) (mkU (-6) 2 0 (-8))) (Pow (Var 10) 4)))]);
   View 12 1 10 Nil;
   View 13 5 11 Nil;
   Frame
    (block [
     Store 13 12 Nil (Add (Sub (Add (Sub (Const (3552894676098831 # 2000000000000000000000) (mkU 4 0 (-2) 0)) (Mul (Const (13910068945316351 # 250000000000000000000000) (mkU 4 0 (-2) (-2))) (Var 12))) (Mul (Const (5121536443747213 # 5000000000000000000000000) (mkU 4 0 (-2) (-4))) (Pow (Var 12) 2))) (Mul (Const (19590892027396233 # 2000000000000000000000000000) (mkU 4 0 (-2) (-6))) (Pow (Var 12) 3))) (Mul (Const (9115117186265681 # 250000000000000000000000000000) (mkU 4 0 (-2) (-8))) (Pow (Var 12) 4)))])]).
(** multisim/precomp_funs.py 403 *)
Definition f_cell_temp_props_ext : func := mkF "cell_temp_props_ext" 403
  [("T_ext", 1); ("V_cell", 2); ("cp_T", 3); ("rho_T", 4); ("mcp_wll", 5); ("rhocp", 6); ("mcp", 7); ("ui", 8)]
  []
  [(1, (mkU 0 0 0 2)); (2, (mkU 6 0 0 0)); (3, (mkU 4 0 (-4) (-2))); (4, (mkU (-6) 2 0 0)); (5, (mkU 4 2 (-4) (-2))); (6, (mkU (-2) 2 (-4) (-2))); (7, (mkU 4 2 (-4) (-2))); (8, (mkU 4 0 (-4) 0))]
  (block [
   Store 6 2 Nil (Mul (Var 4) (Sel 1 (Var 3) Nil));
   Store 7 3 Nil (Add (Mul (Var 2) (Var 6)) (Var 5));
   Store 8 6 Nil (Mul (Sel 4 (Var 3) Nil) (Sel 5 (Var 1) Nil))]).
(** multisim/precomp_funs.py 421 *)
Definition f_cell_temp_props_fld : func := mkF "cell_temp_props_fld" 421
  [("T_ext_fld", 1); ("V_cell", 2); ("cp_T", 3); ("rho_T", 4); ("rhocp_fld", 5); ("mcp_fld", 6); ("ui_fld", 7)]
  []
  [(1, (mkU 0 0 0 2)); (2, (mkU 6 0 0 0)); (3, (mkU 4 0 (-4) (-2))); (4, (mkU (-6) 2 0 0)); (5, (mkU (-2) 2 (-4) (-2))); (6, (mkU 4 2 (-4) (-2))); (7, (mkU 4 0 (-4) 0))]
  (block [
   Store 5 2 Nil (Mul (Var 4) (Sel 1 (Var 3) Nil));
   Store 6 3 Nil (Mul (Var 2) (Var 5));
   Store 7 6 Nil (Mul (Sel 4 (Var 3) Nil) (Sel 5 (Var 1) Nil))]).
(** multisim/precomp_funs.py 441 *)
Definition f_specific_inner_energy_wll : func := mkF "specific_inner_energy_wll" 441
  [("T_wll", 1); ("cp_wll", 2); ("ui", 3)]
  []
  [(1, (mkU 0 0 0 2)); (2, (mkU 4 0 (-4) (-2))); (3, (mkU 4 0 (-4) 0))]
  (block [
   Store 3 1 Nil (Mul (Var 2) (Var 1))]).
(** multisim/precomp_funs.py 454 *)
Definition f_cell_temp_props : func := mkF "cell_temp_props" 454
  [("T", 1); ("V_cell", 2); ("cp_T", 3); ("rho_T", 4); ("mcp_wll", 5); ("rhocp", 6); ("mcp", 7); ("ui", 8)]
  []
  [(1, (mkU 0 0 0 2)); (2, (mkU 6 0 0 0)); (3, (mkU 4 0 (-4) (-2))); (4, (mkU (-6) 2 0 0)); (5, (mkU 4 2 (-4) (-2))); (6, (mkU (-2) 2 (-4) (-2))); (7, (mkU 4 2 (-4) (-2))); (8, (mkU 4 0 (-4) 0))]
  (block [
   Store 6 1 Nil (Mul (Var 4) (Var 3));
   Store 7 2 Nil (Add (Mul (Var 2) (Var 6)) (Var 5));
   Store 8 3 Nil (Mul (Var 3) (Var 1))]).
(** multisim/precomp_funs.py 471 *)
Definition f__lambda_mean_view : func := mkF "_lambda_mean_view" 471
  [("lam_T", 1); ("out", 2)]
  []
  [(1, (mkU 2 2 (-6) (-2))); (2, (mkU 2 2 (-6) (-2)))]
  (block [
   Store 2 5 Nil (Div (Mul (Mul (Const (2 # 1) none) (Sel 1 (Var 1) Nil)) (Sel 2 (Var 1) Nil)) (Add (Sel 3 (Var 1) Nil) (Sel 4 (Var 1) Nil)))]).
(** multisim/precomp_funs.py 488 *)
Definition f__lambda_mean : func := mkF "_lambda_mean" 488
  [("lam_T", 1)]
  [2]
  [(1, (mkU 2 2 (-6) (-2))); (2, (mkU 2 2 (-6) (-2)))]
  (block [
   Let 2 (Div (Mul (Mul (Const (2 # 1) none) (Sel 1 (Var 1) Nil)) (Sel 2 (Var 1) Nil)) (Add (Sel 3 (Var 1) Nil) (Sel 4 (Var 1) Nil)));
   Return]).
(** multisim/precomp_funs.py 506 *)
Definition f_UA_plate_tb : func := mkF "UA_plate_tb" 506
  [("A_cell", 1); ("grid_spacing", 2); ("lam_mean", 3); ("UA_tb_wll", 4); ("out", 5)]
  []
  [(1, (mkU 4 0 0 0)); (2, (mkU 2 0 0 0)); (3, (mkU 2 2 (-6) (-2))); (4, (mkU 4 2 (-6) (-2))); (5, (mkU 4 2 (-6) (-2)))]
  (block [
   Store 5 1 Nil (Add (Mul (Div (Var 1) (Var 2)) (Var 3)) (Var 4))]).
(** multisim/precomp_funs.py 518 *)
Definition f_UA_plate_tb_fld : func := mkF "UA_plate_tb_fld" 518
  [("A_cell", 1); ("grid_spacing", 2); ("lam_mean", 3); ("out", 4)]
  []
  [(1, (mkU 4 0 0 0)); (2, (mkU 2 0 0 0)); (3, (mkU 2 2 (-6) (-2))); (4, (mkU 4 2 (-6) (-2)))]
  (block [
   Store 4 1 Nil (Mul (Div (Var 1) (Var 2)) (Var 3))]).
(** multisim/precomp_funs.py 530 *)
Definition f_UA_plate_tb_wll : func := mkF "UA_plate_tb_wll" 530
  [("UA_tb_wll", 1); ("out", 2)]
  []
  [(1, (mkU 4 2 (-6) (-2))); (2, (mkU 4 2 (-6) (-2)))]
  (block [
   Store 2 1 Nil (Var 1)]).
(** multisim/precomp_funs.py 542 *)
Definition f_buoyancy_byNusselt : func := mkF "buoyancy_byNusselt" 542
  [("T", 1); ("ny", 2); ("d_i", 3); ("lam_mean", 4)]
  []
  [(1, (mkU 0 0 0 2)); (2, (mkU 4 0 (-2) 0)); (3, (mkU 2 0 0 0)); (4, (mkU 2 2 (-6) (-2))); (5, (mkU 0 0 0 2)); (9, (mkU 0 0 0 2)); (12, (mkU 0 0 0 2)); (13, (mkU 0 0 0 (-2))); (14, (mkU 0 0 0 (-2))); (15, (mkU 2 0 0 0))]
  (block [
   Let 5 (Sub (Sel 1 (Var 1) Nil) (Sel 2 (Var 1) Nil));
   If (Fn 3 (Cons (Cmp Le (Var 5) (Const (0 # 1) (mkU 0 0 0 2))) Nil))
    (block [
     Return])
    Skip;
   Store 5 4 (Cons (Cmp Lt (Var 5) (Const (0 # 1) (mkU 0 0 0 2))) Nil) (Const (0 # 1) (mkU 0 0 0 2));
   Let 6 (Const (20 # 1) none);
   Let 7 (Sub (Fn 5 Nil) (Const (1 # 1) none));
   Let 8 (Const (0 # 1) none);
   View 9 1 6 Nil;
   Frame
    (block [
     Let 10 (Sub (Add (Sub (Const (62890054099689529 # 5000000000000000) none) (Mul (Const (8781170142941877 # 25000000000000000) (mkU 0 0 0 (-2))) (Var 9))) (Mul (Const (8645096088941217 # 2000000000000000000) (mkU 0 0 0 (-4))) (Pow (Var 9) 2))) (Mul (Const (9587096961594449 # 500000000000000000000) (mkU 0 0 0 (-6))) (Pow (Var 9) 3)));
     Return]);
   View 11 10 7 Nil;
   View 12 1 8 Nil;
   Frame
    (block [
     Let 13 (Add (Sub (Add (Neg (Const (293992682383333 # 5000000000000000000) (mkU 0 0 0 (-2)))) (Mul (Const (15641955219950547 # 1000000000000000000000) (mkU 0 0 0 (-4))) (Var 12))) (Mul (Const (13587684743777981 # 100000000000000000000000) (mkU 0 0 0 (-6))) (Pow (Var 12) 2))) (Mul (Const (30610251654074543 # 50000000000000000000000000) (mkU 0 0 0 (-8))) (Pow (Var 12) 3)));
     Return]);
   View 14 13 9 Nil;
   Store 14 11 (Cons (Cmp Lt (Var 14) (Const (0 # 1) (mkU 0 0 0 (-2)))) Nil) (Mul (Sel 10 (Var 14) (Cons (Cmp Lt (Var 14) (Const (0 # 1) (mkU 0 0 0 (-2)))) Nil)) (Neg (Const (1 # 1) none)));
   Let 15 (Div (Var 3) (Const (4 # 1) none));
   Let 16 (Div (Mul (Mul (Mul (Mul (Var 11) (Const (981 # 100) (mkU 2 0 (-4) 0))) (Pow (Var 15) 3)) (Var 14)) (Var 5)) (Pow (Sel 12 (Var 2) Nil) 2));
   Let 17 (Mul (Var 16) (Fn 14 (Cons (Add (Const (1 # 1) none) (Fn 13 (Cons (Div (Const (161 # 500) none) (Var 11)) Nil))) Nil)));
   Let 18 (Cmp Gt (Var 17) (Const (70000 # 1) none));
   Store 8 18 (Cons (Fn 19 (Cons (Var 18) Nil)) Nil) (Mul (Const (383 # 500) none) (Fn 17 (Cons (Sel 15 (Var 17) (Cons (Fn 16 (Cons (Var 18) Nil)) Nil)) Nil)));
   Store 8 22 (Cons (Var 18) Nil) (Mul (Const (3 # 20) none) (Fn 21 (Cons (Sel 20 (Var 17) (Cons (Var 18) Nil)) Nil)));
   Let 19 (Cmp Ge (Var 8) (Const (1 # 1) none));
   Store 4 25 (Cons (Var 19) Nil) (Mul (Sel 23 (Var 4) (Cons (Var 19) Nil)) (Mul (Sel 24 (Var 8) (Cons (Var 19) Nil)) (Var 6)))]).
(** multisim/precomp_funs.py 593 *)
Definition f_buoyancy_AixLib : func := mkF "buoyancy_AixLib" 593
  [("T", 1); ("cp", 2); ("rho", 3); ("ny", 4); ("grid_spacing", 5); ("lam_mean", 6)]
  []
  [(1, (mkU 0 0 0 2)); (2, (mkU 4 0 (-4) (-2))); (3, (mkU (-6) 2 0 0)); (4, (mkU 4 0 (-2) 0)); (5, (mkU 2 0 0 0)); (6, (mkU 2 2 (-6) (-2))); (7, (mkU 0 0 0 2)); (9, (mkU 2 0 (-4) 0)); (10, (mkU 0 0 0 2)); (11, (mkU 0 0 0 (-2))); (12, (mkU 0 0 0 (-2))); (13, (mkU 2 2 (-6) (-2)))]
  (block [
   Let 7 (Sub (Sel 1 (Var 1) Nil) (Sel 2 (Var 1) Nil));
   If (Fn 3 (Cons (Cmp Le (Var 7) (Const (0 # 1) (mkU 0 0 0 2))) Nil))
    (block [
     Return])
    Skip;
   Store 7 4 (Cons (Cmp Lt (Var 7) (Const (0 # 1) (mkU 0 0 0 2))) Nil) (Const (0 # 1) (mkU 0 0 0 2));
   Let 8 (Const (2 # 5) none);
   Let 9 (Const (981 # 100) (mkU 2 0 (-4) 0));
   View 10 1 5 Nil;
   Frame
    (block [
     Let 11 (Add (Sub (Add (Neg (Const (293992682383333 # 5000000000000000000) (mkU 0 0 0 (-2)))) (Mul (Const (15641955219950547 # 1000000000000000000000) (mkU 0 0 0 (-4))) (Var 10))) (Mul (Const (13587684743777981 # 100000000000000000000000) (mkU 0 0 0 (-6))) (Pow (Var 10) 2))) (Mul (Const (30610251654074543 # 50000000000000000000000000) (mkU 0 0 0 (-8))) (Pow (Var 10) 3)));
     Return]);
   View 12 11 6 Nil;
   Store 12 8 (Cons (Cmp Lt (Var 12) (Const (0 # 1) (mkU 0 0 0 (-2)))) Nil) (Mul (Sel 7 (Var 12) (Cons (Cmp Lt (Var 12) (Const (0 # 1) (mkU 0 0 0 (-2)))) Nil)) (Neg (Const (1 # 1) none)));
   Let 13 (Mul (Mul (Mul (Mul (Mul (Div (Const (2 # 1) none) (Const (3 # 1) none)) (Var 3)) (Var 2)) (Var 8)) (Pow (Var 5) 2)) (Sqrt (Abs (Div (Mul (Mul (Neg (Var 9)) (Var 12)) (Var 7)) (Var 5)))));
   Store 6 9 Nil (Add (Var 6) (Var 13))]).
(** multisim/precomp_funs.py 640 *)
Definition f__vonNeumann_stability_invar : func := mkF "_vonNeumann_stability_invar" 640
  [("part_id", 1); ("stability_breaches", 2); ("UA_tb", 3); ("UA_port", 4); ("UA_amb_shell", 5); ("dm_io", 6); ("rho_T", 7); ("rhocp", 8); ("grid_spacing", 9); ("port_subs_gsp", 10); ("A_cell", 11); ("A_port", 12); ("A_shell", 13); ("r_total", 14); ("V_cell", 15); ("step_stable", 16); ("vN_max_step", 17); ("max_factor", 18); ("stepnum", 19); ("timestep", 20)]
  [29; 30; 31]
  [(3, (mkU 4 2 (-6) (-2))); (4, (mkU 4 2 (-6) (-2))); (5, (mkU 4 2 (-6) (-2))); (6, (mkU 0 2 (-2) 0)); (7, (mkU (-6) 2 0 0)); (8, (mkU (-2) 2 (-4) (-2))); (9, (mkU 2 0 0 0)); (10, (mkU 2 0 0 0)); (11, (mkU 4 0 0 0)); (12, (mkU 4 0 0 0)); (13, (mkU 4 0 0 0)); (14, (mkU 2 0 0 0)); (15, (mkU 6 0 0 0)); (17, (mkU 0 0 2 0)); (20, (mkU 0 0 2 0)); (23, (mkU 0 2 0 0)); (28, (mkU 0 0 2 0)); (30, (mkU 0 0 2 0))]
  (block [
   Let 21 (Const (0 # 1) none);
   Store 21 4 Nil (Div (Mul (Red Maxi 3 (Div (Sel 1 (Var 3) Nil) (Sel 2 (Var 8) Nil))) (Var 20)) (Mul (Var 11) (Var 9)));
   Store 21 7 Nil (Div (Mul (Red Maxi 5 (Div (Var 4) (Mul (Var 12) (Var 10)))) (Var 20)) (Red Maxi 6 (Var 8)));
   Store 21 9 Nil (Div (Mul (Red Maxi 8 (Div (Var 5) (Var 8))) (Var 20)) (Mul (Var 13) (Var 14)));
   Let 22 (Red Maxi 10 (Var 21));
   Let 23 (Mul (Var 15) (Red Maxi 11 (Var 7)));
   Let 24 (Div (Mul (Red Maxi 12 (Abs (Var 6))) (Var 20)) (Var 23));
   Let 25 (Div (Var 22) (Const (1 # 2) none));
   Let 26 (Div (Var 24) (Const (1 # 1) none));
   Let 27 (Max (Var 25) (Var 26));
   If (Cmp Gt (Var 27) (Const (1 # 1) none))
    (block [
     If (Const (1 # 1) none)
      (block [
       Store 16 13 Nil (Const (0 # 1) none);
       Store 2 14 Nil (Add (Var 2) (Const (1 # 1) none));
       Let 28 (Mul (Div (Var 20) (Var 27)) (Const (19 # 20) none));
       If (Cmp Gt (Sel 15 (Var 17) Nil) (Var 28))
        (block [
         Store 17 16 Nil (Var 28)])
        Skip;
       If (Cmp Gt (Sel 17 (Var 18) Nil) (Const (21 # 20) none))
        (block [
         Store 18 20 Nil (Fn 19 (Cons (Sel 18 (Var 18) Nil) Nil));
         If (Cmp Lt (Sel 21 (Var 18) Nil) (Const (21 # 20) none))
          (block [
           Store 18 22 Nil (Const (21 # 20) none)])
          Skip])
        Skip])
      (block [
       Raise])])
    Skip;
   View 29 16 23 Nil;
   View 30 17 24 Nil;
   View 31 18 25 Nil;
   Return]).
(** multisim/precomp_funs.py 761 *)
Definition f__vonNeumann_stability_invar_hexnum : func := mkF "_vonNeumann_stability_invar_hexnum" 761
  [("part_id", 1); ("stability_breaches", 2); ("UA_dim1", 3); ("UA_dim2", 4); ("UA_port", 5); ("dm_io", 6); ("rho_T", 7); ("rhocp", 8); ("grid_spacing", 9); ("port_subs_gsp", 10); ("A_channel", 11); ("A_plate_eff", 12); ("A_port", 13); ("V_cell", 14); ("step_stable", 15); ("vN_max_step", 16); ("max_factor", 17); ("stepnum", 18); ("timestep", 19)]
  [29; 30; 31]
  [(3, (mkU 4 2 (-6) (-2))); (4, (mkU 4 2 (-6) (-2))); (5, (mkU 4 2 (-6) (-2))); (6, (mkU 0 2 (-2) 0)); (7, (mkU (-6) 2 0 0)); (8, (mkU (-2) 2 (-4) (-2))); (9, (mkU 2 0 0 0)); (10, (mkU 2 0 0 0)); (11, (mkU 4 0 0 0)); (12, (mkU 4 0 0 0)); (13, (mkU 4 0 0 0)); (14, (mkU 6 0 0 0)); (16, (mkU 0 0 2 0)); (19, (mkU 0 0 2 0)); (21, (mkU (-2) 2 (-4) (-2))); (23, (mkU 0 2 0 0)); (28, (mkU 0 0 2 0)); (30, (mkU 0 0 2 0))]
  (block [
   Let 20 (Const (0 # 1) none);
   Let 21 (Red Maxi 1 (Var 8));
   Store 20 3 Nil (Div (Mul (Div (Red Maxi 2 (Var 3)) (Var 21)) (Var 19)) (Mul (Var 11) (Var 9)));
   Store 20 5 Nil (Div (Mul (Div (Red Maxi 4 (Var 4)) (Var 21)) (Var 19)) (Mul (Var 12) (Var 9)));
   Store 20 7 Nil (Mul (Div (Red Maxi 6 (Div (Var 5) (Mul (Var 13) (Var 10)))) (Var 21)) (Var 19));
   Let 22 (Red Maxi 8 (Var 20));
   Let 23 (Mul (Var 14) (Red Maxi 9 (Var 7)));
   Let 24 (Div (Mul (Red Maxi 10 (Abs (Var 6))) (Var 19)) (Var 23));
   Let 25 (Div (Var 22) (Const (1 # 2) none));
   Let 26 (Div (Var 24) (Const (1 # 1) none));
   Let 27 (Max (Var 25) (Var 26));
   If (Cmp Gt (Var 27) (Const (1 # 1) none))
    (block [
     If (Const (1 # 1) none)
      (block [
       Store 15 11 Nil (Const (0 # 1) none);
       Store 2 12 Nil (Add (Var 2) (Const (1 # 1) none));
       Let 28 (Mul (Div (Var 19) (Var 27)) (Const (19 # 20) none));
       If (Cmp Gt (Sel 13 (Var 16) Nil) (Var 28))
        (block [
         Store 16 14 Nil (Var 28)])
        Skip;
       If (Cmp Gt (Sel 15 (Var 17) Nil) (Const (21 # 20) none))
        (block [
         Store 17 18 Nil (Fn 17 (Cons (Sel 16 (Var 17) Nil) Nil));
         If (Cmp Lt (Sel 19 (Var 17) Nil) (Const (21 # 20) none))
          (block [
           Store 17 20 Nil (Const (21 # 20) none)])
          Skip])
        Skip])
      (block [
       Raise])])
    Skip;
   View 29 15 21 Nil;
   View 30 16 22 Nil;
   View 31 17 23 Nil;
   Return]).
(** multisim/precomp_funs.py 893 *)
Definition f__vonNeumann_stability_var : func := mkF "_vonNeumann_stability_var" 893
  [("part_id", 1); ("stability_breaches", 2); ("UA_tb", 3); ("UA_port", 4); ("UA_amb_shell", 5); ("dm_top", 6); ("dm_bot", 7); ("dm_port", 8); ("rho_T", 9); ("rhocp", 10); ("grid_spacing", 11); ("port_subs_gsp", 12); ("A_cell", 13); ("A_port", 14); ("A_shell", 15); ("r_total", 16); ("V_cell", 17); ("step_stable", 18); ("vN_max_step", 19); ("max_factor", 20); ("stepnum", 21); ("timestep", 22)]
  [31; 32; 33]
  [(3, (mkU 4 2 (-6) (-2))); (4, (mkU 4 2 (-6) (-2))); (5, (mkU 4 2 (-6) (-2))); (6, (mkU 0 2 (-2) 0)); (7, (mkU 0 2 (-2) 0)); (8, (mkU 0 2 (-2) 0)); (9, (mkU (-6) 2 0 0)); (10, (mkU (-2) 2 (-4) (-2))); (11, (mkU 2 0 0 0)); (12, (mkU 2 0 0 0)); (13, (mkU 4 0 0 0)); (14, (mkU 4 0 0 0)); (15, (mkU 4 0 0 0)); (16, (mkU 2 0 0 0)); (17, (mkU 6 0 0 0)); (19, (mkU 0 0 2 0)); (22, (mkU 0 0 2 0)); (25, (mkU 0 2 0 0)); (30, (mkU 0 0 2 0)); (32, (mkU 0 0 2 0))]
  (block [
   Let 23 (Const (0 # 1) none);
   Store 23 4 Nil (Div (Mul (Red Maxi 3 (Div (Sel 1 (Var 3) Nil) (Sel 2 (Var 10) Nil))) (Var 22)) (Mul (Var 13) (Var 11)));
   Store 23 7 Nil (Div (Mul (Red Maxi 5 (Div (Var 4) (Mul (Var 14) (Var 12)))) (Var 22)) (Red Maxi 6 (Var 10)));
   Store 23 9 Nil (Div (Mul (Red Maxi 8 (Div (Var 5) (Var 10))) (Var 22)) (Mul (Var 15) (Var 16)));
   Let 24 (Red Maxi 10 (Var 23));
   Let 25 (Mul (Var 17) (Red Maxi 11 (Var 9)));
   Let 26 (Div (Mul (Max (Max (Red Maxi 12 (Var 6)) (Red Maxi 13 (Var 7))) (Red Maxi 14 (Abs (Var 8)))) (Var 22)) (Var 25));
   Let 27 (Div (Var 24) (Const (1 # 2) none));
   Let 28 (Div (Var 26) (Const (1 # 1) none));
   Let 29 (Max (Var 27) (Var 28));
   If (Cmp Gt (Var 29) (Const (1 # 1) none))
    (block [
     If (Const (1 # 1) none)
      (block [
       Store 18 15 Nil (Const (0 # 1) none);
       Store 2 16 Nil (Add (Var 2) (Const (1 # 1) none));
       Let 30 (Mul (Div (Var 22) (Var 29)) (Const (19 # 20) none));
       If (Cmp Gt (Sel 17 (Var 19) Nil) (Var 30))
        (block [
         Store 19 18 Nil (Var 30)])
        Skip;
       If (Cmp Gt (Sel 19 (Var 20) Nil) (Const (21 # 20) none))
        (block [
         Store 20 22 Nil (Fn 21 (Cons (Sel 20 (Var 20) Nil) Nil));
         If (Cmp Lt (Sel 23 (Var 20) Nil) (Const (21 # 20) none))
          (block [
           Store 20 24 Nil (Const (21 # 20) none)])
          Skip])
        Skip])
      (block [
       Raise])])
    Skip;
   View 31 18 25 Nil;
   View 32 19 26 Nil;
   View 33 20 27 Nil;
   Return]).
(** multisim/precomp_funs.py 1031 *)
Definition f_pipe1D_diff : func := mkF "pipe1D_diff" 1031
  [("T_ext", 1); ("T_port", 2); ("T_s", 3); ("T_amb", 4); ("ports_all", 5); ("dm_io", 6); ("dm_top", 7); ("dm_bot", 8); ("dm_port", 9); ("res_dm", 10); ("cp_T", 11); ("lam_T", 12); ("rho_T", 13); ("ny_T", 14); ("lam_mean", 15); ("cp_port", 16); ("lam_port_fld", 17); ("mcp", 18); ("rhocp", 19); ("lam_wll", 20); ("lam_ins", 21); ("mcp_wll", 22); ("ui", 23); ("alpha_i", 24); ("alpha_inf", 25); ("UA_tb", 26); ("UA_tb_wll", 27); ("UA_amb_shell", 28); ("UA_port", 29); ("UA_port_wll", 30); ("port_own_idx", 31); ("port_link_idx", 32); ("grid_spacing", 33); ("port_gsp", 34); ("port_subs_gsp", 35); ("d_i", 36); ("cell_dist", 37); ("flow_length", 38); ("r_total", 39); ("r_ln_wll", 40); ("r_ln_ins", 41); ("r_rins", 42); ("A_cell", 43); ("V_cell", 44); ("A_shell_i", 45); ("A_shell_ins", 46); ("A_p_fld_mean", 47); ("process_flows", 48); ("vertical", 49); ("step_stable", 50); ("part_id", 51); ("stability_breaches", 52); ("vN_max_step", 53); ("max_factor", 54); ("stepnum", 55); ("dT_cond", 56); ("dT_adv", 57); ("dT_total", 58); ("timestep", 59)]
  [209]
  [(1, (mkU 0 0 0 2)); (2, (mkU 0 0 0 2)); (3, (mkU 0 0 0 2)); (4, (mkU 0 0 0 2)); (5, (mkU 0 0 0 2)); (6, (mkU 0 2 (-2) 0)); (7, (mkU 0 2 (-2) 0)); (8, (mkU 0 2 (-2) 0)); (9, (mkU 0 2 (-2) 0)); (10, (mkU 0 2 (-2) 0)); (11, (mkU 4 0 (-4) (-2))); (12, (mkU 2 2 (-6) (-2))); (13, (mkU (-6) 2 0 0)); (14, (mkU 4 0 (-2) 0)); (15, (mkU 2 2 (-6) (-2))); (16, (mkU 4 0 (-4) (-2))); (17, (mkU 2 2 (-6) (-2))); (18, (mkU 4 2 (-4) (-2))); (19, (mkU (-2) 2 (-4) (-2))); (20, (mkU 2 2 (-6) (-2))); (21, (mkU 2 2 (-6) (-2))); (22, (mkU 4 2 (-4) (-2))); (23, (mkU 4 0 (-4) 0)); (24, (mkU 0 2 (-6) (-2))); (25, (mkU 0 2 (-6) (-2))); (26, (mkU 4 2 (-6) (-2))); (27, (mkU 4 2 (-6) (-2))); (28, (mkU 4 2 (-6) (-2))); (29, (mkU 4 2 (-6) (-2))); (30, (mkU 4 2 (-6) (-2))); (33, (mkU 2 0 0 0)); (34, (mkU 2 0 0 0)); (35, (mkU 2 0 0 0)); (36, (mkU 2 0 0 0)); (37, (mkU 2 0 0 0)); (38, (mkU 2 0 0 0)); (39, (mkU 2 0 0 0)); (40, (mkU 2 0 0 0)); (41, (mkU 2 0 0 0)); (43, (mkU 4 0 0 0)); (44, (mkU 6 0 0 0)); (45, (mkU 4 0 0 0)); (46, (mkU 4 0 0 0)); (47, (mkU 4 0 0 0)); (53, (mkU 0 0 2 0)); (56, (mkU 0 0 (-2) 2)); (57, (mkU 0 0 (-2) 2)); (58, (mkU 0 0 (-2) 2)); (59, (mkU 0 0 2 0)); (61, (mkU 0 2 (-2) 0)); (62, (mkU 0 2 (-2) 0)); (63, (mkU 0 2 (-2) 0)); (64, (mkU 0 2 (-2) 0)); (66, (mkU 0 2 (-2) 0)); (68, (mkU 0 0 0 2)); (69, (mkU 4 0 (-4) (-2))); (70, (mkU 2 2 (-6) (-2))); (71, (mkU (-6) 2 0 0)); (72, (mkU 4 0 (-2) 0)); (73, (mkU 0 0 0 2)); (74, (mkU 4 0 (-4) (-2))); (75, (mkU 0 0 0 2)); (76, (mkU 2 2 (-6) (-2))); (77, (mkU 0 0 0 2)); (78, (mkU (-6) 2 0 0)); (79, (mkU 0 0 0 2)); (80, (mkU 4 0 (-2) 0)); (81, (mkU 2 2 (-6) (-2))); (82, (mkU 2 2 (-6) (-2))); (83, (mkU 4 0 0 0)); (84, (mkU 2 0 0 0)); (85, (mkU 2 2 (-6) (-2))); (86, (mkU 4 2 (-6) (-2))); (87, (mkU 4 2 (-6) (-2))); (88, (mkU 0 0 0 2)); (89, (mkU 0 0 0 2)); (90, (mkU 4 0 0 0)); (91, (mkU 0 2 (-6) (-2))); (92, (mkU 4 2 (-6) (-2))); (93, (mkU 0 0 0 2)); (94, (mkU 0 2 (-2) 0)); (95, (mkU 0 0 0 2)); (96, (mkU (-6) 2 0 0)); (97, (mkU 4 0 (-2) 0)); (98, (mkU 2 2 (-6) (-2))); (99, (mkU 4 0 0 0)); (100, (mkU 2 0 0 0)); (101, (mkU 2 0 0 0)); (102, (mkU 0 2 (-6) (-2))); (107, (mkU 2 0 (-2) 0)); (108, (mkU 2 0 0 0)); (109, (mkU 4 0 (-2) 0)); (111, (mkU 0 0 0 2)); (114, (mkU 2 0 0 0)); (117, (mkU 0 0 0 2)); (118, (mkU 0 0 0 2)); (119, (mkU 2 0 0 0)); (121, (mkU 2 0 0 0)); (122, (mkU 0 2 (-6) (-2))); (123, (mkU 0 0 0 2)); (125, (mkU 0 0 0 2)); (126, (mkU 4 0 (-2) 0)); (127, (mkU 2 2 (-6) (-2))); (128, (mkU 0 0 0 2)); (129, (mkU 4 0 (-2) 0)); (130, (mkU 0 0 0 2)); (131, (mkU 2 2 (-6) (-2))); (135, (mkU 4 0 0 0)); (136, (mkU 2 0 0 0)); (137, (mkU 2 0 0 0)); (139, (mkU 0 2 (-6) (-2))); (140, (mkU 0 2 (-6) (-2))); (141, (mkU 2 2 (-6) (-2))); (142, (mkU 2 2 (-6) (-2))); (143, (mkU 4 2 (-6) (-2))); (144, (mkU 0 0 0 2)); (145, (mkU 6 0 0 0)); (146, (mkU 4 0 (-4) (-2))); (147, (mkU (-6) 2 0 0)); (148, (mkU 4 2 (-4) (-2))); (149, (mkU (-2) 2 (-4) (-2))); (150, (mkU 4 2 (-4) (-2))); (151, (mkU 4 0 (-4) 0)); (152, (mkU 0 0 0 2)); (155, (mkU 0 0 0 2)); (156, (mkU 4 2 (-4) (-2))); (157, (mkU 4 2 (-6) (-2))); (158, (mkU 4 2 (-6) (-2))); (159, (mkU 4 0 0 0)); (160, (mkU 2 0 0 0)); (161, (mkU 2 0 0 0)); (162, (mkU 2 2 (-6) (-2))); (163, (mkU 4 0 (-4) (-2))); (164, (mkU 2 2 (-6) (-2))); (165, (mkU 0 0 0 2)); (166, (mkU 0 0 (-2) 2)); (168, (mkU 0 0 0 2)); (170, (mkU 0 0 0 2)); (171, (mkU 4 0 (-4) (-2))); (172, (mkU 0 0 0 2)); (173, (mkU 2 2 (-6) (-2))); (174, (mkU 0 0 (-2) 2)); (175, (mkU 0 0 (-2) 2)); (178, (mkU 4 2 (-6) (-2))); (179, (mkU 4 2 (-6) (-2))); (180, (mkU 4 2 (-6) (-2))); (181, (mkU 0 2 (-2) 0)); (182, (mkU (-6) 2 0 0)); (183, (mkU (-2) 2 (-4) (-2))); (184, (mkU 2 0 0 0)); (185, (mkU 2 0 0 0)); (186, (mkU 4 0 0 0)); (187, (mkU 4 0 0 0)); (188, (mkU 4 0 0 0)); (189, (mkU 2 0 0 0)); (190, (mkU 6 0 0 0)); (192, (mkU 0 0 2 0)); (195, (mkU 0 0 2 0)); (198, (mkU 0 2 0 0)); (203, (mkU 0 0 2 0)); (205, (mkU 0 0 2 0)); (209, (mkU 0 0 (-2) 2))]
  (block [
   View 60 48 1 Nil;
   View 61 6 2 Nil;
   View 62 7 3 Nil;
   View 63 8 4 Nil;
   View 64 9 5 Nil;
   View 65 55 6 Nil;
   View 66 10 7 Nil;
   Frame
    (block [
     If (Sel 8 (Var 60) Nil)
      (block [
       If (Cmp Ge (Sel 9 (Var 61) Nil) (Const (0 # 1) (mkU 0 2 (-2) 0)))
        (block [
         Store 62 11 Nil (Sel 10 (Var 61) Nil);
         Store 63 12 Nil (Const (0 # 1) (mkU 0 2 (-2) 0))])
        (block [
         Store 63 14 Nil (Neg (Sel 13 (Var 61) Nil));
         Store 62 15 Nil (Const (0 # 1) (mkU 0 2 (-2) 0))]);
       If (Cmp Ge (Sel 16 (Var 61) Nil) (Const (0 # 1) (mkU 0 2 (-2) 0)))
        (block [
         Store 64 18 Nil (Sel 17 (Var 61) Nil);
         Store 64 19 Nil (Const (0 # 1) (mkU 0 2 (-2) 0))])
        (block [
         Store 64 21 Nil (Neg (Sel 20 (Var 61) Nil));
         Store 64 22 Nil (Const (0 # 1) (mkU 0 2 (-2) 0))]);
       Store 66 24 (Cons (Sel 25 (Var 65) Nil) Nil) (Sel 23 (Var 61) Nil)])
      Skip;
     Let 67 (Const (0 # 1) none);
     Return]);
   Store 48 26 Nil (Var 67);
   View 68 1 27 Nil;
   View 69 11 28 Nil;
   View 70 12 29 Nil;
   View 71 13 30 Nil;
   View 72 14 31 Nil;
   Frame
    (block [
     View 73 68 32 Nil;
     View 74 69 33 Nil;
     Frame
      (block [
       Store 74 34 Nil (Add (Sub (Add (Sub (Const (5269252946772499 # 1250000000000) (mkU 4 0 (-4) (-2))) (Mul (Const (7213485820879837 # 2500000000000000) (mkU 4 0 (-4) (-4))) (Var 73))) (Mul (Const (468161292800073 # 6250000000000000) (mkU 4 0 (-4) (-6))) (Pow (Var 73) 2))) (Mul (Const (77807143441700321 # 100000000000000000000) (mkU 4 0 (-4) (-8))) (Pow (Var 73) 3))) (Mul (Const (501708265162663 # 156250000000000000000) (mkU 4 0 (-4) (-10))) (Pow (Var 73) 4)))]);
     View 75 68 35 Nil;
     View 76 70 36 Nil;
     Frame
      (block [
       Store 76 37 Nil (Sub (Sub (Add (Const (56987912853229539 # 100000000000000000) (mkU 2 2 (-6) (-2))) (Mul (Const (8939185201272869 # 5000000000000000000) (mkU 2 2 (-6) (-4))) (Var 75))) (Mul (Const (11999643454775959 # 2000000000000000000000) (mkU 2 2 (-6) (-6))) (Pow (Var 75) 2))) (Mul (Const (86964577115093407 # 10000000000000000000000000) (mkU 2 2 (-6) (-8))) (Pow (Var 75) 3)))]);
     View 77 68 38 Nil;
     View 78 71 39 Nil;
     Frame
      (block [
       Store 78 40 Nil (Sub (Add (Sub (Add (Const (99988785713136213 # 100000000000000) (mkU (-6) 2 0 0)) (Mul (Const (24802227495264801 # 500000000000000000) (mkU (-6) 2 0 (-2))) (Var 77))) (Mul (Const (74722666453460717 # 10000000000000000000) (mkU (-6) 2 0 (-4))) (Pow (Var 77) 2))) (Mul (Const (10273621109538621 # 250000000000000000000) (mkU (-6) 2 0 (-6))) (Pow (Var 77) 3))) (Mul (Const (6457894773161807 # 50000000000000000000000) (mkU (-6) 2 0 (-8))) (Pow (Var 77) 4)))]);
     View 79 68 41 Nil;
     View 80 72 42 Nil;
     Frame
      (block [
       Store 80 43 Nil (Add (Sub (Add (Sub (Const (3552894676098831 # 2000000000000000000000) (mkU 4 0 (-2) 0)) (Mul (Const (13910068945316351 # 250000000000000000000000) (mkU 4 0 (-2) (-2))) (Var 79))) (Mul (Const (5121536443747213 # 5000000000000000000000000) (mkU 4 0 (-2) (-4))) (Pow (Var 79) 2))) (Mul (Const (19590892027396233 # 2000000000000000000000000000) (mkU 4 0 (-2) (-6))) (Pow (Var 79) 3))) (Mul (Const (9115117186265681 # 250000000000000000000000000000) (mkU 4 0 (-2) (-8))) (Pow (Var 79) 4)))])]);
   View 81 12 44 Nil;
   View 82 15 45 Nil;
   Frame
    (block [
     Store 82 50 Nil (Div (Mul (Mul (Const (2 # 1) none) (Sel 46 (Var 81) Nil)) (Sel 47 (Var 81) Nil)) (Add (Sel 48 (Var 81) Nil) (Sel 49 (Var 81) Nil)))]);
   View 83 43 51 Nil;
   View 84 33 52 Nil;
   View 85 15 53 Nil;
   View 86 27 54 Nil;
   View 87 26 55 Nil;
   Frame
    (block [
     Store 87 56 Nil (Add (Mul (Div (Var 83) (Var 84)) (Var 85)) (Var 86))]);
   View 88 1 57 Nil;
   View 89 4 58 Nil;
   View 90 46 59 Nil;
   View 91 25 60 Nil;
   View 92 28 61 Nil;
   View 93 3 62 Nil;
   Frame
    (block [
     Store 93 63 Nil (Add (Var 89) (Div (Mul (Sub (Var 88) (Var 89)) (Var 92)) (Mul (Var 91) (Var 90))))]);
   View 94 6 64 Nil;
   View 95 1 65 Nil;
   View 96 13 66 Nil;
   View 97 14 67 Nil;
   View 98 12 68 Nil;
   View 99 43 69 Nil;
   View 100 36 70 Nil;
   View 101 37 71 Nil;
   View 102 24 72 Nil;
   Frame
    (block [
     Let 103 (Fn 73 Nil);
     Let 104 (Const (0 # 1) none);
     Let 105 (Const (0 # 1) none);
     Let 106 (Const (0 # 1) none);
     Let 107 (Div (Var 94) (Mul (Var 96) (Var 99)));
     View 108 100 75 Nil;
     View 109 97 76 Nil;
     View 110 104 77 Nil;
     Frame
      (block [
       Store 110 78 Nil (Div (Mul (Abs (Var 107)) (Var 108)) (Var 109))]);
     View 111 95 79 Nil;
     View 112 105 80 Nil;
     Frame
      (block [
       Store 112 81 Nil (Sub (Add (Sub (Const (62890054099689529 # 5000000000000000) none) (Mul (Const (8781170142941877 # 25000000000000000) (mkU 0 0 0 (-2))) (Var 111))) (Mul (Const (8645096088941217 # 2000000000000000000) (mkU 0 0 0 (-4))) (Pow (Var 111) 2))) (Mul (Const (9587096961594449 # 500000000000000000000) (mkU 0 0 0 (-6))) (Pow (Var 111) 3)))]);
     Let 113 (Mul (Var 104) (Var 105));
     If (Cmp Lt (Sel 82 (Var 94) Nil) (Const (0 # 1) (mkU 0 2 (-2) 0)))
      (block [
       View 114 101 83 Nil])
      (block [
       View 114 101 84 Nil]);
     Let 115 (Cmp Gt (Var 104) (Const (2300 # 1) none));
     Store 106 91 (Cons (Fn 92 (Cons (Var 115) Nil)) Nil) (Fn 90 (Cons (Add (Const (49371 # 1000) none) (Pow (Sub (Mul (Const (1077 # 1000) none) (Fn 89 (Cons (Div (Mul (Sel 85 (Var 113) (Cons (Fn 86 (Cons (Var 115) Nil)) Nil)) (Var 100)) (Sel 87 (Var 114) (Cons (Fn 88 (Cons (Var 115) Nil)) Nil))) Nil))) (Const (7 # 10) none)) 3)) Nil));
     Let 116 (Pow (Sub (Mul (Const (9 # 5) none) (Fn 94 (Cons (Sel 93 (Var 104) (Cons (Var 115) Nil)) Nil))) (Const (3 # 2) none)) (-2));
     Store 106 101 (Cons (Var 115) Nil) (Mul (Div (Mul (Div (Var 116) (Const (8 # 1) none)) (Sel 95 (Var 113) (Cons (Var 115) Nil))) (Add (Const (1 # 1) none) (Mul (Mul (Const (127 # 10) none) (Sub (Fn 97 (Cons (Sel 96 (Var 105) (Cons (Var 115) Nil)) Nil)) (Const (1 # 1) none))) (Fn 98 (Cons (Div (Var 116) (Const (8 # 1) none)) Nil))))) (Add (Const (1 # 1) none) (Div (Fn 100 (Cons (Div (Var 100) (Sel 99 (Var 114) (Cons (Var 115) Nil))) Nil)) (Const (3 # 1) none))));
     Store 102 102 Nil (Div (Mul (Var 106) (Var 98)) (Var 100))]);
   View 117 3 103 Nil;
   View 118 4 104 Nil;
   View 119 38 105 Nil;
   View 120 49 106 Nil;
   View 121 39 107 Nil;
   View 122 25 108 Nil;
   Frame
    (block [
     Let 123 (Const (5463 # 20) (mkU 0 0 0 2));
     Let 124 (Const (177 # 250) none);
     Let 125 (Div (Add (Var 118) (Var 117)) (Const (2 # 1) none));
     Let 126 (Const (0 # 1) (mkU 4 0 (-2) 0));
     Let 127 (Const (0 # 1) (mkU 2 2 (-6) (-2)));
     View 128 125 111 Nil;
     View 129 126 112 Nil;
     Frame
      (block [
       Store 129 113 Nil (Add (Add (Const (13500069264069257 # 1000000000000000000000) (mkU 4 0 (-2) 0)) (Mul (Const (88810389610389459 # 1000000000000000000000000) (mkU 4 0 (-2) (-2))) (Var 128))) (Mul (Const (10974025974025443 # 100000000000000000000000000) (mkU 4 0 (-2) (-4))) (Pow (Var 128) 2)))]);
     View 130 125 114 Nil;
     View 131 127 115 Nil;
     Frame
      (block [
       Store 131 116 Nil (Sub (Add (Const (24358670995670989 # 1000000000000000000) (mkU 2 2 (-6) (-2))) (Mul (Const (76533982683982561 # 1000000000000000000000) (mkU 2 2 (-6) (-4))) (Var 130))) (Mul (Const (42099567099572201 # 1000000000000000000000000) (mkU 2 2 (-6) (-6))) (Pow (Var 130) 2)))]);
     Let 132 (Div (Mul (Mul (Mul (Abs (Sub (Var 117) (Var 118))) (Const (981 # 100) (mkU 2 0 (-4) 0))) (Pow (Var 119) 3)) (Var 124)) (Mul (Add (Var 118) (Var 123)) (Pow (Var 126) 2)));
     If (Var 120)
      (block [
       Let 133 (Const (3466023585520853 # 10000000000000000) none);
       Let 134 (Add (Pow (Add (Const (33 # 40) none) (Mul (Const (387 # 1000) none) (Fn 117 (Cons (Mul (Var 132) (Var 133)) Nil)))) 2) (Div (Mul (Const (87 # 200) none) (Var 119)) (Mul (Const (2 # 1) none) (Var 121))))])
      (block [
       Let 133 (Const (3269207911296459 # 10000000000000000) none);
       Let 134 (Pow (Add (Const (94 # 125) none) (Mul (Const (387 # 1000) none) (Fn 118 (Cons (Mul (Var 132) (Var 133)) Nil)))) 2)]);
     Store 122 119 Nil (Div (Mul (Var 134) (Var 127)) (Var 119))]);
   View 135 45 120 Nil;
   View 136 40 121 Nil;
   View 137 41 122 Nil;
   View 138 42 123 Nil;
   View 139 24 124 Nil;
   View 140 25 125 Nil;
   View 141 20 126 Nil;
   View 142 21 127 Nil;
   View 143 28 128 Nil;
   Frame
    (block [
     Store 143 129 Nil (Div (Var 135) (Add (Add (Add (Div (Const (1 # 1) none) (Var 139)) (Div (Var 136) (Var 141))) (Div (Var 137) (Var 142))) (Div (Var 138) (Var 140))))]);
   View 144 1 130 Nil;
   View 145 44 131 Nil;
   View 146 11 132 Nil;
   View 147 13 133 Nil;
   View 148 22 134 Nil;
   View 149 19 135 Nil;
   View 150 18 136 Nil;
   View 151 23 137 Nil;
   Frame
    (block [
     Store 149 139 Nil (Mul (Var 147) (Sel 138 (Var 146) Nil));
     Store 150 140 Nil (Add (Mul (Var 145) (Var 149)) (Var 148));
     Store 151 143 Nil (Mul (Sel 141 (Var 146) Nil) (Sel 142 (Var 144) Nil))]);
   View 152 5 144 Nil;
   View 153 32 145 Nil;
   View 154 31 146 Nil;
   View 155 1 147 Nil;
   View 156 18 148 Nil;
   View 157 29 149 Nil;
   View 158 30 150 Nil;
   View 159 47 151 Nil;
   View 160 34 152 Nil;
   View 161 33 153 Nil;
   View 162 12 154 Nil;
   View 163 16 155 Nil;
   View 164 17 156 Nil;
   View 165 2 157 Nil;
   Frame
    (block [
     Let 166 (Const (0 # 1) (mkU 0 0 (-2) 2));
     For 167 178 (Cons (Fn 159 Nil) Nil)
      (block [
       View 168 152 160 (Cons (Sel 161 (Var 153) (Cons (Var 167) Nil)) Nil);
       View 169 154 162 (Cons (Var 167) Nil);
       Store 165 163 (Cons (Var 167) Nil) (Var 168);
       View 170 168 164 Nil;
       Frame
        (block [
         Let 171 (Add (Sub (Add (Sub (Const (5269252946772499 # 1250000000000) (mkU 4 0 (-4) (-2))) (Mul (Const (7213485820879837 # 2500000000000000) (mkU 4 0 (-4) (-4))) (Var 170))) (Mul (Const (468161292800073 # 6250000000000000) (mkU 4 0 (-4) (-6))) (Pow (Var 170) 2))) (Mul (Const (77807143441700321 # 100000000000000000000) (mkU 4 0 (-4) (-8))) (Pow (Var 170) 3))) (Mul (Const (501708265162663 # 156250000000000000000) (mkU 4 0 (-4) (-10))) (Pow (Var 170) 4)));
         Return]);
       Store 163 165 (Cons (Var 167) Nil) (Var 171);
       View 172 168 166 Nil;
       Frame
        (block [
         Let 173 (Sub (Sub (Add (Const (56987912853229539 # 100000000000000000) (mkU 2 2 (-6) (-2))) (Mul (Const (8939185201272869 # 5000000000000000000) (mkU 2 2 (-6) (-4))) (Var 172))) (Mul (Const (11999643454775959 # 2000000000000000000000) (mkU 2 2 (-6) (-6))) (Pow (Var 172) 2))) (Mul (Const (86964577115093407 # 10000000000000000000000000) (mkU 2 2 (-6) (-8))) (Pow (Var 172) 3)));
         Return]);
       Store 164 167 (Cons (Var 167) Nil) (Var 173);
       Store 157 173 (Cons (Var 167) Nil) (Add (Div (Sel 168 (Var 159) (Cons (Var 167) Nil)) (Add (Div (Sel 169 (Var 160) (Cons (Var 167) Nil)) (Mul (Const (2 # 1) none) (Sel 170 (Var 164) (Cons (Var 167) Nil)))) (Div (Var 161) (Mul (Const (2 # 1) none) (Sel 171 (Var 162) (Cons (Var 169) Nil)))))) (Sel 172 (Var 158) (Cons (Var 167) Nil)));
       Store 166 177 (Cons (Var 167) Nil) (Div (Mul (Sel 174 (Var 157) (Cons (Var 167) Nil)) (Sub (Var 168) (Sel 175 (Var 155) (Cons (Var 169) Nil)))) (Sel 176 (Var 156) (Cons (Var 169) Nil)))]);
     View 174 166 179 Nil;
     Return]);
   View 175 174 180 Nil;
   View 176 51 181 Nil;
   View 177 52 182 Nil;
   View 178 26 183 Nil;
   View 179 29 184 Nil;
   View 180 28 185 Nil;
   View 181 6 186 Nil;
   View 182 13 187 Nil;
   View 183 19 188 Nil;
   View 184 33 189 Nil;
   View 185 35 190 Nil;
   View 186 43 191 Nil;
   View 187 47 192 Nil;
   View 188 46 193 Nil;
   View 189 39 194 Nil;
   View 190 44 195 Nil;
   View 191 50 196 Nil;
   View 192 53 197 Nil;
   View 193 54 198 Nil;
   View 194 55 199 Nil;
   View 195 59 200 Nil;
   Frame
    (block [
     Let 196 (Const (0 # 1) none);
     Store 196 204 Nil (Div (Mul (Red Maxi 203 (Div (Sel 201 (Var 178) Nil) (Sel 202 (Var 183) Nil))) (Var 195)) (Mul (Var 186) (Var 184)));
     Store 196 207 Nil (Div (Mul (Red Maxi 205 (Div (Var 179) (Mul (Var 187) (Var 185)))) (Var 195)) (Red Maxi 206 (Var 183)));
     Store 196 209 Nil (Div (Mul (Red Maxi 208 (Div (Var 180) (Var 183))) (Var 195)) (Mul (Var 188) (Var 189)));
     Let 197 (Red Maxi 210 (Var 196));
     Let 198 (Mul (Var 190) (Red Maxi 211 (Var 182)));
     Let 199 (Div (Mul (Red Maxi 212 (Abs (Var 181))) (Var 195)) (Var 198));
     Let 200 (Div (Var 197) (Const (1 # 2) none));
     Let 201 (Div (Var 199) (Const (1 # 1) none));
     Let 202 (Max (Var 200) (Var 201));
     If (Cmp Gt (Var 202) (Const (1 # 1) none))
      (block [
       If (Const (1 # 1) none)
        (block [
         Store 191 213 Nil (Const (0 # 1) none);
         Store 177 214 Nil (Add (Var 177) (Const (1 # 1) none));
         Let 203 (Mul (Div (Var 195) (Var 202)) (Const (19 # 20) none));
         If (Cmp Gt (Sel 215 (Var 192) Nil) (Var 203))
          (block [
           Store 192 216 Nil (Var 203)])
          Skip;
         If (Cmp Gt (Sel 217 (Var 193) Nil) (Const (21 # 20) none))
          (block [
           Store 193 220 Nil (Fn 219 (Cons (Sel 218 (Var 193) Nil) Nil));
           If (Cmp Lt (Sel 221 (Var 193) Nil) (Const (21 # 20) none))
            (block [
             Store 193 222 Nil (Const (21 # 20) none)])
            Skip])
          Skip])
        (block [
         Raise])])
      Skip;
     View 204 191 223 Nil;
     View 205 192 224 Nil;
     View 206 193 225 Nil;
     Return]);
   View 50 204 226 Nil;
   View 53 205 227 Nil;
   View 54 206 228 Nil;
   Store 56 237 Nil (Div (Add (Add (Mul (Sel 229 (Var 26) Nil) (Sub (Sel 230 (Var 1) Nil) (Sel 231 (Var 1) Nil))) (Mul (Sel 232 (Var 26) Nil) (Sub (Sel 233 (Var 1) Nil) (Sel 234 (Var 1) Nil)))) (Mul (Var 28) (Sub (Sel 235 (Var 4) Nil) (Sel 236 (Var 1) Nil)))) (Var 18));
   Store 57 242 Nil (Div (Add (Mul (Var 7) (Sub (Mul (Sel 238 (Var 11) Nil) (Sel 239 (Var 1) Nil)) (Var 23))) (Mul (Var 8) (Sub (Mul (Sel 240 (Var 11) Nil) (Sel 241 (Var 1) Nil)) (Var 23)))) (Var 18));
   For 207 255 (Cons (Fn 243 Nil) Nil)
    (block [
     View 208 31 244 (Cons (Var 207) Nil);
     Store 56 247 (Cons (Var 208) Nil) (Add (Sel 245 (Var 56) (Cons (Var 208) Nil)) (Sel 246 (Var 175) (Cons (Var 207) Nil)));
     Store 57 254 (Cons (Var 208) Nil) (Add (Sel 248 (Var 57) (Cons (Var 208) Nil)) (Div (Mul (Sel 249 (Var 9) (Cons (Var 207) Nil)) (Sub (Mul (Sel 250 (Var 16) (Cons (Var 207) Nil)) (Sel 251 (Var 2) (Cons (Var 207) Nil))) (Sel 252 (Var 23) (Cons (Var 208) Nil)))) (Sel 253 (Var 18) (Cons (Var 208) Nil))))]);
   Store 58 256 Nil (Add (Var 56) (Var 57));
   View 209 58 257 Nil;
   Return]).
(** multisim/precomp_funs.py 1662 *)
Definition f_pipe1D_branched_diff : func := mkF "pipe1D_branched_diff" 1662
  [("T_ext", 1); ("T_port", 2); ("T_s", 3); ("T_amb", 4); ("ports_all", 5); ("dm_io", 6); ("dm", 7); ("dm_top", 8); ("dm_bot", 9); ("dm_port", 10); ("res_dm", 11); ("cp_T", 12); ("lam_T", 13); ("rho_T", 14); ("ny_T", 15); ("lam_mean", 16); ("cp_port", 17); ("lam_port_fld", 18); ("mcp", 19); ("rhocp", 20); ("lam_wll", 21); ("lam_ins", 22); ("mcp_wll", 23); ("ui", 24); ("alpha_i", 25); ("alpha_inf", 26); ("UA_tb", 27); ("UA_tb_wll", 28); ("UA_amb_shell", 29); ("UA_port", 30); ("UA_port_wll", 31); ("port_own_idx", 32); ("port_link_idx", 33); ("grid_spacing", 34); ("port_gsp", 35); ("port_subs_gsp", 36); ("d_i", 37); ("cell_dist", 38); ("flow_length", 39); ("r_total", 40); ("r_ln_wll", 41); ("r_ln_ins", 42); ("r_rins", 43); ("A_cell", 44); ("V_cell", 45); ("A_shell_i", 46); ("A_shell_ins", 47); ("A_p_fld_mean", 48); ("process_flows", 49); ("vertical", 50); ("step_stable", 51); ("part_id", 52); ("stability_breaches", 53); ("vN_max_step", 54); ("max_factor", 55); ("stepnum", 56); ("dT_cond", 57); ("dT_adv", 58); ("dT_total", 59); ("timestep", 60)]
  [215]
  [(1, (mkU 0 0 0 2)); (2, (mkU 0 0 0 2)); (3, (mkU 0 0 0 2)); (4, (mkU 0 0 0 2)); (5, (mkU 0 0 0 2)); (6, (mkU 0 2 (-2) 0)); (7, (mkU 0 2 (-2) 0)); (8, (mkU 0 2 (-2) 0)); (9, (mkU 0 2 (-2) 0)); (10, (mkU 0 2 (-2) 0)); (11, (mkU 0 2 (-2) 0)); (12, (mkU 4 0 (-4) (-2))); (13, (mkU 2 2 (-6) (-2))); (14, (mkU (-6) 2 0 0)); (15, (mkU 4 0 (-2) 0)); (16, (mkU 2 2 (-6) (-2))); (17, (mkU 4 0 (-4) (-2))); (18, (mkU 2 2 (-6) (-2))); (19, (mkU 4 2 (-4) (-2))); (20, (mkU (-2) 2 (-4) (-2))); (21, (mkU 2 2 (-6) (-2))); (22, (mkU 2 2 (-6) (-2))); (23, (mkU 4 2 (-4) (-2))); (24, (mkU 4 0 (-4) 0)); (25, (mkU 0 2 (-6) (-2))); (26, (mkU 0 2 (-6) (-2))); (27, (mkU 4 2 (-6) (-2))); (28, (mkU 4 2 (-6) (-2))); (29, (mkU 4 2 (-6) (-2))); (30, (mkU 4 2 (-6) (-2))); (31, (mkU 4 2 (-6) (-2))); (34, (mkU 2 0 0 0)); (35, (mkU 2 0 0 0)); (36, (mkU 2 0 0 0)); (37, (mkU 2 0 0 0)); (38, (mkU 2 0 0 0)); (39, (mkU 2 0 0 0)); (40, (mkU 2 0 0 0)); (41, (mkU 2 0 0 0)); (42, (mkU 2 0 0 0)); (44, (mkU 4 0 0 0)); (45, (mkU 6 0 0 0)); (46, (mkU 4 0 0 0)); (47, (mkU 4 0 0 0)); (48, (mkU 4 0 0 0)); (54, (mkU 0 0 2 0)); (57, (mkU 0 0 (-2) 2)); (58, (mkU 0 0 (-2) 2)); (59, (mkU 0 0 (-2) 2)); (60, (mkU 0 0 2 0)); (62, (mkU 0 2 (-2) 0)); (63, (mkU 0 2 (-2) 0)); (64, (mkU 0 2 (-2) 0)); (65, (mkU 0 2 (-2) 0)); (66, (mkU 0 2 (-2) 0)); (69, (mkU 0 2 (-2) 0)); (70, (mkU 0 2 (-2) 0)); (72, (mkU 0 2 (-2) 0)); (74, (mkU 0 0 0 2)); (75, (mkU 4 0 (-4) (-2))); (76, (mkU 2 2 (-6) (-2))); (77, (mkU (-6) 2 0 0)); (78, (mkU 4 0 (-2) 0)); (79, (mkU 0 0 0 2)); (80, (mkU 4 0 (-4) (-2))); (81, (mkU 0 0 0 2)); (82, (mkU 2 2 (-6) (-2))); (83, (mkU 0 0 0 2)); (84, (mkU (-6) 2 0 0)); (85, (mkU 0 0 0 2)); (86, (mkU 4 0 (-2) 0)); (87, (mkU 2 2 (-6) (-2))); (88, (mkU 2 2 (-6) (-2))); (89, (mkU 4 0 0 0)); (90, (mkU 2 0 0 0)); (91, (mkU 2 2 (-6) (-2))); (92, (mkU 4 2 (-6) (-2))); (93, (mkU 4 2 (-6) (-2))); (94, (mkU 0 0 0 2)); (95, (mkU 0 0 0 2)); (96, (mkU 4 0 0 0)); (97, (mkU 0 2 (-6) (-2))); (98, (mkU 4 2 (-6) (-2))); (99, (mkU 0 0 0 2)); (100, (mkU 0 2 (-2) 0)); (101, (mkU 0 0 0 2)); (102, (mkU (-6) 2 0 0)); (103, (mkU 4 0 (-2) 0)); (104, (mkU 2 2 (-6) (-2))); (105, (mkU 4 0 0 0)); (106, (mkU 2 0 0 0)); (107, (mkU 2 0 0 0)); (108, (mkU 0 2 (-6) (-2))); (113, (mkU 2 0 (-2) 0)); (114, (mkU 2 0 0 0)); (115, (mkU 4 0 (-2) 0)); (117, (mkU 0 0 0 2)); (120, (mkU 2 0 0 0)); (123, (mkU 0 0 0 2)); (124, (mkU 0 0 0 2)); (125, (mkU 2 0 0 0)); (127, (mkU 2 0 0 0)); (128, (mkU 0 2 (-6) (-2))); (129, (mkU 0 0 0 2)); (131, (mkU 0 0 0 2)); (132, (mkU 4 0 (-2) 0)); (133, (mkU 2 2 (-6) (-2))); (134, (mkU 0 0 0 2)); (135, (mkU 4 0 (-2) 0)); (136, (mkU 0 0 0 2)); (137, (mkU 2 2 (-6) (-2))); (141, (mkU 4 0 0 0)); (142, (mkU 2 0 0 0)); (143, (mkU 2 0 0 0)); (145, (mkU 0 2 (-6) (-2))); (146, (mkU 0 2 (-6) (-2))); (147, (mkU 2 2 (-6) (-2))); (148, (mkU 2 2 (-6) (-2))); (149, (mkU 4 2 (-6) (-2))); (150, (mkU 0 0 0 2)); (151, (mkU 6 0 0 0)); (152, (mkU 4 0 (-4) (-2))); (153, (mkU (-6) 2 0 0)); (154, (mkU 4 2 (-4) (-2))); (155, (mkU (-2) 2 (-4) (-2))); (156, (mkU 4 2 (-4) (-2))); (157, (mkU 4 0 (-4) 0)); (158, (mkU 0 0 0 2)); (161, (mkU 0 0 0 2)); (162, (mkU 4 2 (-4) (-2))); (163, (mkU 4 2 (-6) (-2))); (164, (mkU 4 2 (-6) (-2))); (165, (mkU 4 0 0 0)); (166, (mkU 2 0 0 0)); (167, (mkU 2 0 0 0)); (168, (mkU 2 2 (-6) (-2))); (169, (mkU 4 0 (-4) (-2))); (170, (mkU 2 2 (-6) (-2))); (171, (mkU 0 0 0 2)); (172, (mkU 0 0 (-2) 2)); (174, (mkU 0 0 0 2)); (176, (mkU 0 0 0 2)); (177, (mkU 4 0 (-4) (-2))); (178, (mkU 0 0 0 2)); (179, (mkU 2 2 (-6) (-2))); (180, (mkU 0 0 (-2) 2)); (181, (mkU 0 0 (-2) 2)); (184, (mkU 4 2 (-6) (-2))); (185, (mkU 4 2 (-6) (-2))); (186, (mkU 4 2 (-6) (-2))); (187, (mkU 0 2 (-2) 0)); (188, (mkU (-6) 2 0 0)); (189, (mkU (-2) 2 (-4) (-2))); (190, (mkU 2 0 0 0)); (191, (mkU 2 0 0 0)); (192, (mkU 4 0 0 0)); (193, (mkU 4 0 0 0)); (194, (mkU 4 0 0 0)); (195, (mkU 2 0 0 0)); (196, (mkU 6 0 0 0)); (198, (mkU 0 0 2 0)); (201, (mkU 0 0 2 0)); (204, (mkU 0 2 0 0)); (209, (mkU 0 0 2 0)); (211, (mkU 0 0 2 0)); (215, (mkU 0 0 (-2) 2))]
  (block [
   View 61 49 1 Nil;
   View 62 6 2 Nil;
   View 63 7 3 Nil;
   View 64 8 4 Nil;
   View 65 9 5 Nil;
   View 66 10 6 Nil;
   View 67 32 7 Nil;
   View 68 56 8 Nil;
   View 69 11 9 Nil;
   Frame
    (block [
     If (Sel 10 (Var 61) Nil)
      (block [
       Store 63 11 Nil (Const (0 # 1) (mkU 0 2 (-2) 0));
       Let 70 (Red Sum 12 (Var 62));
       For 71 21 (Cons (Sub (Fn 13 Nil) (Const (1 # 1) none)) Nil)
        (block [
         Store 63 18 (Cons (Sel 19 (Var 67) (Cons (Var 71) Nil)) (Cons (Sel 20 (Var 67) (Cons (Add (Var 71) (Const (1 # 1) none)) Nil)) Nil)) (Add (Sel 14 (Var 63) (Cons (Sel 15 (Var 67) (Cons (Var 71) Nil)) (Cons (Sel 16 (Var 67) (Cons (Add (Var 71) (Const (1 # 1) none)) Nil)) Nil))) (Sel 17 (Var 70) (Cons (Var 71) Nil)))]);
       Store 66 22 Nil (Var 62);
       Store 64 24 Nil (Sel 23 (Var 63) Nil);
       Store 65 26 Nil (Neg (Sel 25 (Var 63) Nil));
       Store 64 27 (Cons (Cmp Lt (Var 64) (Const (0 # 1) (mkU 0 2 (-2) 0))) Nil) (Const (0 # 1) (mkU 0 2 (-2) 0));
       Store 65 28 (Cons (Cmp Lt (Var 65) (Const (0 # 1) (mkU 0 2 (-2) 0))) Nil) (Const (0 # 1) (mkU 0 2 (-2) 0));
       View 72 66 29 Nil;
       Store 72 30 (Cons (Cmp Lt (Var 72) (Const (0 # 1) (mkU 0 2 (-2) 0))) Nil) (Const (0 # 1) (mkU 0 2 (-2) 0));
       Store 63 32 Nil (Sel 31 (Var 63) Nil);
       Store 69 33 (Cons (Sel 34 (Var 68) Nil) Nil) (Var 63)])
      Skip;
     Let 73 (Const (0 # 1) none);
     Return]);
   Store 49 35 Nil (Var 73);
   View 74 1 36 Nil;
   View 75 12 37 Nil;
   View 76 13 38 Nil;
   View 77 14 39 Nil;
   View 78 15 40 Nil;
   Frame
    (block [
     View 79 74 41 Nil;
     View 80 75 42 Nil;
     Frame
      (block [
       Store 80 43 Nil (Add (Sub (Add (Sub (Const (5269252946772499 # 1250000000000) (mkU 4 0 (-4) (-2))) (Mul (Const (7213485820879837 # 2500000000000000) (mkU 4 0 (-4) (-4))) (Var 79))) (Mul (Const (468161292800073 # 6250000000000000) (mkU 4 0 (-4) (-6))) (Pow (Var 79) 2))) (Mul (Const (77807143441700321 # 100000000000000000000) (mkU 4 0 (-4) (-8))) (Pow (Var 79) 3))) (Mul (Const (501708265162663 # 156250000000000000000) (mkU 4 0 (-4) (-10))) (Pow (Var 79) 4)))]);
     View 81 74 44 Nil;
     View 82 76 45 Nil;
     Frame
      (block [
       Store 82 46 Nil (Sub (Sub (Add (Const (56987912853229539 # 100000000000000000) (mkU 2 2 (-6) (-2))) (Mul (Const (8939185201272869 # 5000000000000000000) (mkU 2 2 (-6) (-4))) (Var 81))) (Mul (Const (11999643454775959 # 2000000000000000000000) (mkU 2 2 (-6) (-6))) (Pow (Var 81) 2))) (Mul (Const (86964577115093407 # 10000000000000000000000000) (mkU 2 2 (-6) (-8))) (Pow (Var 81) 3)))]);
     View 83 74 47 Nil;
     View 84 77 48 Nil;
     Frame
      (block [
       Store 84 49 Nil (Sub (Add (Sub (Add (Const (99988785713136213 # 100000000000000) (mkU (-6) 2 0 0)) (Mul (Const (24802227495264801 # 500000000000000000) (mkU (-6) 2 0 (-2))) (Var 83))) (Mul (Const (74722666453460717 # 10000000000000000000) (mkU (-6) 2 0 (-4))) (Pow (Var 83) 2))) (Mul (Const (10273621109538621 # 250000000000000000000) (mkU (-6) 2 0 (-6))) (Pow (Var 83) 3))) (Mul (Const (6457894773161807 # 50000000000000000000000) (mkU (-6) 2 0 (-8))) (Pow (Var 83) 4)))]);
     View 85 74 50 Nil;
     View 86 78 51 Nil;
     Frame
      (block [
       Store 86 52 Nil (Add (Sub (Add (Sub (Const (3552894676098831 # 2000000000000000000000) (mkU 4 0 (-2) 0)) (Mul (Const (13910068945316351 # 250000000000000000000000) (mkU 4 0 (-2) (-2))) (Var 85))) (Mul (Const (5121536443747213 # 5000000000000000000000000) (mkU 4 0 (-2) (-4))) (Pow (Var 85) 2))) (Mul (Const (19590892027396233 # 2000000000000000000000000000) (mkU 4 0 (-2) (-6))) (Pow (Var 85) 3))) (Mul (Const (9115117186265681 # 250000000000000000000000000000) (mkU 4 0 (-2) (-8))) (Pow (Var 85) 4)))])]);
   View 87 13 53 Nil;
   View 88 16 54 Nil;
   Frame
    (block [
     Store 88 59 Nil (Div (Mul (Mul (Const (2 # 1) none) (Sel 55 (Var 87) Nil)) (Sel 56 (Var 87) Nil)) (Add (Sel 57 (Var 87) Nil) (Sel 58 (Var 87) Nil)))]);
   View 89 44 60 Nil;
   View 90 34 61 Nil;
   View 91 16 62 Nil;
   View 92 28 63 Nil;
   View 93 27 64 Nil;
   Frame
    (block [
     Store 93 65 Nil (Add (Mul (Div (Var 89) (Var 90)) (Var 91)) (Var 92))]);
   View 94 1 66 Nil;
   View 95 4 67 Nil;
   View 96 47 68 Nil;
   View 97 26 69 Nil;
   View 98 29 70 Nil;
   View 99 3 71 Nil;
   Frame
    (block [
     Store 99 72 Nil (Add (Var 95) (Div (Mul (Sub (Var 94) (Var 95)) (Var 98)) (Mul (Var 97) (Var 96))))]);
   View 100 7 73 Nil;
   View 101 1 74 Nil;
   View 102 14 75 Nil;
   View 103 15 76 Nil;
   View 104 13 77 Nil;
   View 105 44 78 Nil;
   View 106 37 79 Nil;
   View 107 38 80 Nil;
   View 108 25 81 Nil;
   Frame
    (block [
     Let 109 (Fn 82 Nil);
     Let 110 (Const (0 # 1) none);
     Let 111 (Const (0 # 1) none);
     Let 112 (Const (0 # 1) none);
     Let 113 (Div (Var 100) (Mul (Var 102) (Var 105)));
     View 114 106 84 Nil;
     View 115 103 85 Nil;
     View 116 110 86 Nil;
     Frame
      (block [
       Store 116 87 Nil (Div (Mul (Abs (Var 113)) (Var 114)) (Var 115))]);
     View 117 101 88 Nil;
     View 118 111 89 Nil;
     Frame
      (block [
       Store 118 90 Nil (Sub (Add (Sub (Const (62890054099689529 # 5000000000000000) none) (Mul (Const (8781170142941877 # 25000000000000000) (mkU 0 0 0 (-2))) (Var 117))) (Mul (Const (8645096088941217 # 2000000000000000000) (mkU 0 0 0 (-4))) (Pow (Var 117) 2))) (Mul (Const (9587096961594449 # 500000000000000000000) (mkU 0 0 0 (-6))) (Pow (Var 117) 3)))]);
     Let 119 (Mul (Var 110) (Var 111));
     If (Cmp Lt (Sel 91 (Var 100) Nil) (Const (0 # 1) (mkU 0 2 (-2) 0)))
      (block [
       View 120 107 92 Nil])
      (block [
       View 120 107 93 Nil]);
     Let 121 (Cmp Gt (Var 110) (Const (2300 # 1) none));
     Store 112 100 (Cons (Fn 101 (Cons (Var 121) Nil)) Nil) (Fn 99 (Cons (Add (Const (49371 # 1000) none) (Pow (Sub (Mul (Const (1077 # 1000) none) (Fn 98 (Cons (Div (Mul (Sel 94 (Var 119) (Cons (Fn 95 (Cons (Var 121) Nil)) Nil)) (Var 106)) (Sel 96 (Var 120) (Cons (Fn 97 (Cons (Var 121) Nil)) Nil))) Nil))) (Const (7 # 10) none)) 3)) Nil));
     Let 122 (Pow (Sub (Mul (Const (9 # 5) none) (Fn 103 (Cons (Sel 102 (Var 110) (Cons (Var 121) Nil)) Nil))) (Const (3 # 2) none)) (-2));
     Store 112 110 (Cons (Var 121) Nil) (Mul (Div (Mul (Div (Var 122) (Const (8 # 1) none)) (Sel 104 (Var 119) (Cons (Var 121) Nil))) (Add (Const (1 # 1) none) (Mul (Mul (Const (127 # 10) none) (Sub (Fn 106 (Cons (Sel 105 (Var 111) (Cons (Var 121) Nil)) Nil)) (Const (1 # 1) none))) (Fn 107 (Cons (Div (Var 122) (Const (8 # 1) none)) Nil))))) (Add (Const (1 # 1) none) (Div (Fn 109 (Cons (Div (Var 106) (Sel 108 (Var 120) (Cons (Var 121) Nil))) Nil)) (Const (3 # 1) none))));
     Store 108 111 Nil (Div (Mul (Var 112) (Var 104)) (Var 106))]);
   View 123 3 112 Nil;
   View 124 4 113 Nil;
   View 125 39 114 Nil;
   View 126 50 115 Nil;
   View 127 40 116 Nil;
   View 128 26 117 Nil;
   Frame
    (block [
     Let 129 (Const (5463 # 20) (mkU 0 0 0 2));
     Let 130 (Const (177 # 250) none);
     Let 131 (Div (Add (Var 124) (Var 123)) (Const (2 # 1) none));
     Let 132 (Const (0 # 1) (mkU 4 0 (-2) 0));
     Let 133 (Const (0 # 1) (mkU 2 2 (-6) (-2)));
     View 134 131 120 Nil;
     View 135 132 121 Nil;
     Frame
      (block [
       Store 135 122 Nil (Add (Add (Const (13500069264069257 # 1000000000000000000000) (mkU 4 0 (-2) 0)) (Mul (Const (88810389610389459 # 1000000000000000000000000) (mkU 4 0 (-2) (-2))) (Var 134))) (Mul (Const (10974025974025443 # 100000000000000000000000000) (mkU 4 0 (-2) (-4))) (Pow (Var 134) 2)))]);
     View 136 131 123 Nil;
     View 137 133 124 Nil;
     Frame
      (block [
       Store 137 125 Nil (Sub (Add (Const (24358670995670989 # 1000000000000000000) (mkU 2 2 (-6) (-2))) (Mul (Const (76533982683982561 # 1000000000000000000000) (mkU 2 2 (-6) (-4))) (Var 136))) (Mul (Const (42099567099572201 # 1000000000000000000000000) (mkU 2 2 (-6) (-6))) (Pow (Var 136) 2)))]);
     Let 138 (Div (Mul (Mul (Mul (Abs (Sub (Var 123) (Var 124))) (Const (981 # 100) (mkU 2 0 (-4) 0))) (Pow (Var 125) 3)) (Var 130)) (Mul (Add (Var 124) (Var 129)) (Pow (Var 132) 2)));
     If (Var 126)
      (block [
       Let 139 (Const (3466023585520853 # 10000000000000000) none);
       Let 140 (Add (Pow (Add (Const (33 # 40) none) (Mul (Const (387 # 1000) none) (Fn 126 (Cons (Mul (Var 138) (Var 139)) Nil)))) 2) (Div (Mul (Const (87 # 200) none) (Var 125)) (Mul (Const (2 # 1) none) (Var 127))))])
      (block [
       Let 139 (Const (3269207911296459 # 10000000000000000) none);
       Let 140 (Pow (Add (Const (94 # 125) none) (Mul (Const (387 # 1000) none) (Fn 127 (Cons (Mul (Var 138) (Var 139)) Nil)))) 2)]);
     Store 128 128 Nil (Div (Mul (Var 140) (Var 133)) (Var 125))]);
   View 141 46 129 Nil;
   View 142 41 130 Nil;
   View 143 42 131 Nil;
   View 144 43 132 Nil;
   View 145 25 133 Nil;
   View 146 26 134 Nil;
   View 147 21 135 Nil;
   View 148 22 136 Nil;
   View 149 29 137 Nil;
   Frame
    (block [
     Store 149 138 Nil (Div (Var 141) (Add (Add (Add (Div (Const (1 # 1) none) (Var 145)) (Div (Var 142) (Var 147))) (Div (Var 143) (Var 148))) (Div (Var 144) (Var 146))))]);
   View 150 1 139 Nil;
   View 151 45 140 Nil;
   View 152 12 141 Nil;
   View 153 14 142 Nil;
   View 154 23 143 Nil;
   View 155 20 144 Nil;
   View 156 19 145 Nil;
   View 157 24 146 Nil;
   Frame
    (block [
     Store 155 148 Nil (Mul (Var 153) (Sel 147 (Var 152) Nil));
     Store 156 149 Nil (Add (Mul (Var 151) (Var 155)) (Var 154));
     Store 157 152 Nil (Mul (Sel 150 (Var 152) Nil) (Sel 151 (Var 150) Nil))]);
   View 158 5 153 Nil;
   View 159 33 154 Nil;
   View 160 32 155 Nil;
   View 161 1 156 Nil;
   View 162 19 157 Nil;
   View 163 30 158 Nil;
   View 164 31 159 Nil;
   View 165 48 160 Nil;
   View 166 35 161 Nil;
   View 167 34 162 Nil;
   View 168 13 163 Nil;
   View 169 17 164 Nil;
   View 170 18 165 Nil;
   View 171 2 166 Nil;
   Frame
    (block [
     Let 172 (Const (0 # 1) (mkU 0 0 (-2) 2));
     For 173 187 (Cons (Fn 168 Nil) Nil)
      (block [
       View 174 158 169 (Cons (Sel 170 (Var 159) (Cons (Var 173) Nil)) Nil);
       View 175 160 171 (Cons (Var 173) Nil);
       Store 171 172 (Cons (Var 173) Nil) (Var 174);
       View 176 174 173 Nil;
       Frame
        (block [
         Let 177 (Add (Sub (Add (Sub (Const (5269252946772499 # 1250000000000) (mkU 4 0 (-4) (-2))) (Mul (Const (7213485820879837 # 2500000000000000) (mkU 4 0 (-4) (-4))) (Var 176))) (Mul (Const (468161292800073 # 6250000000000000) (mkU 4 0 (-4) (-6))) (Pow (Var 176) 2))) (Mul (Const (77807143441700321 # 100000000000000000000) (mkU 4 0 (-4) (-8))) (Pow (Var 176) 3))) (Mul (Const (501708265162663 # 156250000000000000000) (mkU 4 0 (-4) (-10))) (Pow (Var 176) 4)));
         Return]);
       Store 169 174 (Cons (Var 173) Nil) (Var 177);
       View 178 174 175 Nil;
       Frame
        (block [
         Let 179 (Sub (Sub (Add (Const (56987912853229539 # 100000000000000000) (mkU 2 2 (-6) (-2))) (Mul (Const (8939185201272869 # 5000000000000000000) (mkU 2 2 (-6) (-4))) (Var 178))) (Mul (Const (11999643454775959 # 2000000000000000000000) (mkU 2 2 (-6) (-6))) (Pow (Var 178) 2))) (Mul (Const (86964577115093407 # 10000000000000000000000000) (mkU 2 2 (-6) (-8))) (Pow (Var 178) 3)));
         Return]);
       Store 170 176 (Cons (Var 173) Nil) (Var 179);
       Store 163 182 (Cons (Var 173) Nil) (Add (Div (Sel 177 (Var 165) (Cons (Var 173) Nil)) (Add (Div (Sel 178 (Var 166) (Cons (Var 173) Nil)) (Mul (Const (2 # 1) none) (Sel 179 (Var 170) (Cons (Var 173) Nil)))) (Div (Var 167) (Mul (Const (2 # 1) none) (Sel 180 (Var 168) (Cons (Var 175) Nil)))))) (Sel 181 (Var 164) (Cons (Var 173) Nil)));
       Store 172 186 (Cons (Var 173) Nil) (Div (Mul (Sel 183 (Var 163) (Cons (Var 173) Nil)) (Sub (Var 174) (Sel 184 (Var 161) (Cons (Var 175) Nil)))) (Sel 185 (Var 162) (Cons (Var 175) Nil)))]);
     View 180 172 188 Nil;
     Return]);
   View 181 180 189 Nil;
   View 182 52 190 Nil;
   View 183 53 191 Nil;
   View 184 27 192 Nil;
   View 185 30 193 Nil;
   View 186 29 194 Nil;
   View 187 6 195 Nil;
   View 188 14 196 Nil;
   View 189 20 197 Nil;
   View 190 34 198 Nil;
   View 191 36 199 Nil;
   View 192 44 200 Nil;
   View 193 48 201 Nil;
   View 194 47 202 Nil;
   View 195 40 203 Nil;
   View 196 45 204 Nil;
   View 197 51 205 Nil;
   View 198 54 206 Nil;
   View 199 55 207 Nil;
   View 200 56 208 Nil;
   View 201 60 209 Nil;
   Frame
    (block [
     Let 202 (Const (0 # 1) none);
     Store 202 213 Nil (Div (Mul (Red Maxi 212 (Div (Sel 210 (Var 184) Nil) (Sel 211 (Var 189) Nil))) (Var 201)) (Mul (Var 192) (Var 190)));
     Store 202 216 Nil (Div (Mul (Red Maxi 214 (Div (Var 185) (Mul (Var 193) (Var 191)))) (Var 201)) (Red Maxi 215 (Var 189)));
     Store 202 218 Nil (Div (Mul (Red Maxi 217 (Div (Var 186) (Var 189))) (Var 201)) (Mul (Var 194) (Var 195)));
     Let 203 (Red Maxi 219 (Var 202));
     Let 204 (Mul (Var 196) (Red Maxi 220 (Var 188)));
     Let 205 (Div (Mul (Red Maxi 221 (Abs (Var 187))) (Var 201)) (Var 204));
     Let 206 (Div (Var 203) (Const (1 # 2) none));
     Let 207 (Div (Var 205) (Const (1 # 1) none));
     Let 208 (Max (Var 206) (Var 207));
     If (Cmp Gt (Var 208) (Const (1 # 1) none))
      (block [
       If (Const (1 # 1) none)
        (block [
         Store 197 222 Nil (Const (0 # 1) none);
         Store 183 223 Nil (Add (Var 183) (Const (1 # 1) none));
         Let 209 (Mul (Div (Var 201) (Var 208)) (Const (19 # 20) none));
         If (Cmp Gt (Sel 224 (Var 198) Nil) (Var 209))
          (block [
           Store 198 225 Nil (Var 209)])
          Skip;
         If (Cmp Gt (Sel 226 (Var 199) Nil) (Const (21 # 20) none))
          (block [
           Store 199 229 Nil (Fn 228 (Cons (Sel 227 (Var 199) Nil) Nil));
           If (Cmp Lt (Sel 230 (Var 199) Nil) (Const (21 # 20) none))
            (block [
             Store 199 231 Nil (Const (21 # 20) none)])
            Skip])
          Skip])
        (block [
         Raise])])
      Skip;
     View 210 197 232 Nil;
     View 211 198 233 Nil;
     View 212 199 234 Nil;
     Return]);
   View 51 210 235 Nil;
   View 54 211 236 Nil;
   View 55 212 237 Nil;
   Store 57 246 Nil (Div (Add (Add (Mul (Sel 238 (Var 27) Nil) (Sub (Sel 239 (Var 1) Nil) (Sel 240 (Var 1) Nil))) (Mul (Sel 241 (Var 27) Nil) (Sub (Sel 242 (Var 1) Nil) (Sel 243 (Var 1) Nil)))) (Mul (Var 29) (Sub (Sel 244 (Var 4) Nil) (Sel 245 (Var 1) Nil)))) (Var 19));
   Store 58 251 Nil (Div (Add (Mul (Var 8) (Sub (Mul (Sel 247 (Var 12) Nil) (Sel 248 (Var 1) Nil)) (Var 24))) (Mul (Var 9) (Sub (Mul (Sel 249 (Var 12) Nil) (Sel 250 (Var 1) Nil)) (Var 24)))) (Var 19));
   For 213 264 (Cons (Fn 252 Nil) Nil)
    (block [
     View 214 32 253 (Cons (Var 213) Nil);
     Store 57 256 (Cons (Var 214) Nil) (Add (Sel 254 (Var 57) (Cons (Var 214) Nil)) (Sel 255 (Var 181) (Cons (Var 213) Nil)));
     Store 58 263 (Cons (Var 214) Nil) (Add (Sel 257 (Var 58) (Cons (Var 214) Nil)) (Div (Mul (Sel 258 (Var 10) (Cons (Var 213) Nil)) (Sub (Mul (Sel 259 (Var 17) (Cons (Var 213) Nil)) (Sel 260 (Var 2) (Cons (Var 213) Nil))) (Sel 261 (Var 24) (Cons (Var 214) Nil)))) (Sel 262 (Var 19) (Cons (Var 214) Nil))))]);
   Store 59 265 Nil (Add (Var 57) (Var 58));
   View 215 59 266 Nil;
   Return]).
(** multisim/precomp_funs.py 1872 *)
Definition f_heatedpipe1D_diff : func := mkF "heatedpipe1D_diff" 1872
  [("T_ext", 1); ("T_port", 2); ("T_s", 3); ("T_amb", 4); ("ports_all", 5); ("dm_io", 6); ("dm_top", 7); ("dm_bot", 8); ("dm_port", 9); ("dQ_heating", 10); ("res_dm", 11); ("res_dQ", 12); ("cp_T", 13); ("lam_T", 14); ("rho_T", 15); ("ny_T", 16); ("lam_mean", 17); ("cp_port", 18); ("lam_port_fld", 19); ("mcp", 20); ("mcp_heated", 21); ("rhocp", 22); ("lam_wll", 23); ("lam_ins", 24); ("mcp_wll", 25); ("ui", 26); ("alpha_i", 27); ("alpha_inf", 28); ("UA_tb", 29); ("UA_tb_wll", 30); ("UA_amb_shell", 31); ("UA_port", 32); ("UA_port_wll", 33); ("port_own_idx", 34); ("port_link_idx", 35); ("heat_mult", 36); ("grid_spacing", 37); ("port_gsp", 38); ("port_subs_gsp", 39); ("d_i", 40); ("cell_dist", 41); ("flow_length", 42); ("r_total", 43); ("r_ln_wll", 44); ("r_ln_ins", 45); ("r_rins", 46); ("A_cell", 47); ("V_cell", 48); ("A_shell_i", 49); ("A_shell_ins", 50); ("A_p_fld_mean", 51); ("process_flows", 52); ("vertical", 53); ("step_stable", 54); ("part_id", 55); ("stability_breaches", 56); ("vN_max_step", 57); ("max_factor", 58); ("stepnum", 59); ("timestep", 60); ("dT_cond", 61); ("dT_adv", 62); ("dT_heat", 63); ("dT_heated", 64); ("emergency_shutdown", 65)]
  [216; 217; 218; 219; 220]
  [(1, (mkU 0 0 0 2)); (2, (mkU 0 0 0 2)); (3, (mkU 0 0 0 2)); (4, (mkU 0 0 0 2)); (5, (mkU 0 0 0 2)); (6, (mkU 0 2 (-2) 0)); (7, (mkU 0 2 (-2) 0)); (8, (mkU 0 2 (-2) 0)); (9, (mkU 0 2 (-2) 0)); (10, (mkU 4 2 (-6) 0)); (11, (mkU 0 2 (-2) 0)); (12, (mkU 4 2 (-6) 0)); (13, (mkU 4 0 (-4) (-2))); (14, (mkU 2 2 (-6) (-2))); (15, (mkU (-6) 2 0 0)); (16, (mkU 4 0 (-2) 0)); (17, (mkU 2 2 (-6) (-2))); (18, (mkU 4 0 (-4) (-2))); (19, (mkU 2 2 (-6) (-2))); (20, (mkU 4 2 (-4) (-2))); (21, (mkU 4 2 (-4) (-2))); (22, (mkU (-2) 2 (-4) (-2))); (23, (mkU 2 2 (-6) (-2))); (24, (mkU 2 2 (-6) (-2))); (25, (mkU 4 2 (-4) (-2))); (26, (mkU 4 0 (-4) 0)); (27, (mkU 0 2 (-6) (-2))); (28, (mkU 0 2 (-6) (-2))); (29, (mkU 4 2 (-6) (-2))); (30, (mkU 4 2 (-6) (-2))); (31, (mkU 4 2 (-6) (-2))); (32, (mkU 4 2 (-6) (-2))); (33, (mkU 4 2 (-6) (-2))); (37, (mkU 2 0 0 0)); (38, (mkU 2 0 0 0)); (39, (mkU 2 0 0 0)); (40, (mkU 2 0 0 0)); (41, (mkU 2 0 0 0)); (42, (mkU 2 0 0 0)); (43, (mkU 2 0 0 0)); (44, (mkU 2 0 0 0)); (45, (mkU 2 0 0 0)); (47, (mkU 4 0 0 0)); (48, (mkU 6 0 0 0)); (49, (mkU 4 0 0 0)); (50, (mkU 4 0 0 0)); (51, (mkU 4 0 0 0)); (57, (mkU 0 0 2 0)); (60, (mkU 0 0 2 0)); (61, (mkU 0 0 (-2) 2)); (62, (mkU 0 0 (-2) 2)); (63, (mkU 0 0 (-2) 2)); (64, (mkU 0 0 (-2) 2)); (65, (mkU 0 0 0 2)); (67, (mkU 0 2 (-2) 0)); (68, (mkU 0 2 (-2) 0)); (69, (mkU 0 2 (-2) 0)); (70, (mkU 0 2 (-2) 0)); (72, (mkU 0 2 (-2) 0)); (74, (mkU 0 0 0 2)); (75, (mkU 4 0 (-4) (-2))); (76, (mkU 2 2 (-6) (-2))); (77, (mkU (-6) 2 0 0)); (78, (mkU 4 0 (-2) 0)); (79, (mkU 0 0 0 2)); (80, (mkU 4 0 (-4) (-2))); (81, (mkU 0 0 0 2)); (82, (mkU 2 2 (-6) (-2))); (83, (mkU 0 0 0 2)); (84, (mkU (-6) 2 0 0)); (85, (mkU 0 0 0 2)); (86, (mkU 4 0 (-2) 0)); (87, (mkU 2 2 (-6) (-2))); (88, (mkU 2 2 (-6) (-2))); (89, (mkU 4 0 0 0)); (90, (mkU 2 0 0 0)); (91, (mkU 2 2 (-6) (-2))); (92, (mkU 4 2 (-6) (-2))); (93, (mkU 4 2 (-6) (-2))); (94, (mkU 0 0 0 2)); (95, (mkU 0 0 0 2)); (96, (mkU 4 0 0 0)); (97, (mkU 0 2 (-6) (-2))); (98, (mkU 4 2 (-6) (-2))); (99, (mkU 0 0 0 2)); (100, (mkU 0 2 (-2) 0)); (101, (mkU 0 0 0 2)); (102, (mkU (-6) 2 0 0)); (103, (mkU 4 0 (-2) 0)); (104, (mkU 2 2 (-6) (-2))); (105, (mkU 4 0 0 0)); (106, (mkU 2 0 0 0)); (107, (mkU 2 0 0 0)); (108, (mkU 0 2 (-6) (-2))); (113, (mkU 2 0 (-2) 0)); (114, (mkU 2 0 0 0)); (115, (mkU 4 0 (-2) 0)); (117, (mkU 0 0 0 2)); (120, (mkU 2 0 0 0)); (123, (mkU 0 0 0 2)); (124, (mkU 0 0 0 2)); (125, (mkU 2 0 0 0)); (127, (mkU 2 0 0 0)); (128, (mkU 0 2 (-6) (-2))); (129, (mkU 0 0 0 2)); (131, (mkU 0 0 0 2)); (132, (mkU 4 0 (-2) 0)); (133, (mkU 2 2 (-6) (-2))); (134, (mkU 0 0 0 2)); (135, (mkU 4 0 (-2) 0)); (136, (mkU 0 0 0 2)); (137, (mkU 2 2 (-6) (-2))); (141, (mkU 4 0 0 0)); (142, (mkU 2 0 0 0)); (143, (mkU 2 0 0 0)); (145, (mkU 0 2 (-6) (-2))); (146, (mkU 0 2 (-6) (-2))); (147, (mkU 2 2 (-6) (-2))); (148, (mkU 2 2 (-6) (-2))); (149, (mkU 4 2 (-6) (-2))); (150, (mkU 0 0 0 2)); (151, (mkU 6 0 0 0)); (152, (mkU 4 0 (-4) (-2))); (153, (mkU (-6) 2 0 0)); (154, (mkU 4 2 (-4) (-2))); (155, (mkU (-2) 2 (-4) (-2))); (156, (mkU 4 2 (-4) (-2))); (157, (mkU 4 0 (-4) 0)); (158, (mkU 0 0 0 2)); (161, (mkU 0 0 0 2)); (162, (mkU 4 2 (-4) (-2))); (163, (mkU 4 2 (-6) (-2))); (164, (mkU 4 2 (-6) (-2))); (165, (mkU 4 0 0 0)); (166, (mkU 2 0 0 0)); (167, (mkU 2 0 0 0)); (168, (mkU 2 2 (-6) (-2))); (169, (mkU 4 0 (-4) (-2))); (170, (mkU 2 2 (-6) (-2))); (171, (mkU 0 0 0 2)); (172, (mkU 0 0 (-2) 2)); (174, (mkU 0 0 0 2)); (176, (mkU 0 0 0 2)); (177, (mkU 4 0 (-4) (-2))); (178, (mkU 0 0 0 2)); (179, (mkU 2 2 (-6) (-2))); (180, (mkU 0 0 (-2) 2)); (181, (mkU 0 0 (-2) 2)); (184, (mkU 4 2 (-6) (-2))); (185, (mkU 4 2 (-6) (-2))); (186, (mkU 4 2 (-6) (-2))); (187, (mkU 0 2 (-2) 0)); (188, (mkU (-6) 2 0 0)); (189, (mkU (-2) 2 (-4) (-2))); (190, (mkU 2 0 0 0)); (191, (mkU 2 0 0 0)); (192, (mkU 4 0 0 0)); (193, (mkU 4 0 0 0)); (194, (mkU 4 0 0 0)); (195, (mkU 2 0 0 0)); (196, (mkU 6 0 0 0)); (198, (mkU 0 0 2 0)); (201, (mkU 0 0 2 0)); (204, (mkU 0 2 0 0)); (209, (mkU 0 0 2 0)); (211, (mkU 0 0 2 0)); (215, (mkU 0 0 (-2) 2)); (216, (mkU 0 0 (-2) 2)); (219, (mkU 0 0 2 0))]
  (block [
   If (Fn 1 (Cons (Cmp Ge (Var 1) (Var 65)) Nil))
    (block [
     Store 10 2 Nil (Const (0 # 1) (mkU 4 2 (-6) 0))])
    Skip;
   If (Sel 3 (Var 52) Nil)
    (block [
     Store 12 4 (Cons (Var 59) Nil) (Var 10)])
    Skip;
   View 66 52 5 Nil;
   View 67 6 6 Nil;
   View 68 7 7 Nil;
   View 69 8 8 Nil;
   View 70 9 9 Nil;
   View 71 59 10 Nil;
   View 72 11 11 Nil;
   Frame
    (block [
     If (Sel 12 (Var 66) Nil)
      (block [
       If (Cmp Ge (Sel 13 (Var 67) Nil) (Const (0 # 1) (mkU 0 2 (-2) 0)))
        (block [
         Store 68 15 Nil (Sel 14 (Var 67) Nil);
         Store 69 16 Nil (Const (0 # 1) (mkU 0 2 (-2) 0))])
        (block [
         Store 69 18 Nil (Neg (Sel 17 (Var 67) Nil));
         Store 68 19 Nil (Const (0 # 1) (mkU 0 2 (-2) 0))]);
       If (Cmp Ge (Sel 20 (Var 67) Nil) (Const (0 # 1) (mkU 0 2 (-2) 0)))
        (block [
         Store 70 22 Nil (Sel 21 (Var 67) Nil);
         Store 70 23 Nil (Const (0 # 1) (mkU 0 2 (-2) 0))])
        (block [
         Store 70 25 Nil (Neg (Sel 24 (Var 67) Nil));
         Store 70 26 Nil (Const (0 # 1) (mkU 0 2 (-2) 0))]);
       Store 72 28 (Cons (Sel 29 (Var 71) Nil) Nil) (Sel 27 (Var 67) Nil)])
      Skip;
     Let 73 (Const (0 # 1) none);
     Return]);
   Store 52 30 Nil (Var 73);
   View 74 1 31 Nil;
   View 75 13 32 Nil;
   View 76 14 33 Nil;
   View 77 15 34 Nil;
   View 78 16 35 Nil;
   Frame
    (block [
     View 79 74 36 Nil;
     View 80 75 37 Nil;
     Frame
      (block [
       Store 80 38 Nil (Add (Sub (Add (Sub (Const (5269252946772499 # 1250000000000) (mkU 4 0 (-4) (-2))) (Mul (Const (7213485820879837 # 2500000000000000) (mkU 4 0 (-4) (-4))) (Var 79))) (Mul (Const (468161292800073 # 6250000000000000) (mkU 4 0 (-4) (-6))) (Pow (Var 79) 2))) (Mul (Const (77807143441700321 # 100000000000000000000) (mkU 4 0 (-4) (-8))) (Pow (Var 79) 3))) (Mul (Const (501708265162663 # 156250000000000000000) (mkU 4 0 (-4) (-10))) (Pow (Var 79) 4)))]);
     View 81 74 39 Nil;
     View 82 76 40 Nil;
     Frame
      (block [
       Store 82 41 Nil (Sub (Sub (Add (Const (56987912853229539 # 100000000000000000) (mkU 2 2 (-6) (-2))) (Mul (Const (8939185201272869 # 5000000000000000000) (mkU 2 2 (-6) (-4))) (Var 81))) (Mul (Const (11999643454775959 # 2000000000000000000000) (mkU 2 2 (-6) (-6))) (Pow (Var 81) 2))) (Mul (Const (86964577115093407 # 10000000000000000000000000) (mkU 2 2 (-6) (-8))) (Pow (Var 81) 3)))]);
     View 83 74 42 Nil;
     View 84 77 43 Nil;
     Frame
      (block [
       Store 84 44 Nil (Sub (Add (Sub (Add (Const (99988785713136213 # 100000000000000) (mkU (-6) 2 0 0)) (Mul (Const (24802227495264801 # 500000000000000000) (mkU (-6) 2 0 (-2))) (Var 83))) (Mul (Const (74722666453460717 # 10000000000000000000) (mkU (-6) 2 0 (-4))) (Pow (Var 83) 2))) (Mul (Const (10273621109538621 # 250000000000000000000) (mkU (-6) 2 0 (-6))) (Pow (Var 83) 3))) (Mul (Const (6457894773161807 # 50000000000000000000000) (mkU (-6) 2 0 (-8))) (Pow (Var 83) 4)))]);
     View 85 74 45 Nil;
     View 86 78 46 Nil;
     Frame
      (block [
       Store 86 47 Nil (Add (Sub (Add (Sub (Const (3552894676098831 # 2000000000000000000000) (mkU 4 0 (-2) 0)) (Mul (Const (13910068945316351 # 250000000000000000000000) (mkU 4 0 (-2) (-2))) (Var 85))) (Mul (Const (5121536443747213 # 5000000000000000000000000) (mkU 4 0 (-2) (-4))) (Pow (Var 85) 2))) (Mul (Const (19590892027396233 # 2000000000000000000000000000) (mkU 4 0 (-2) (-6))) (Pow (Var 85) 3))) (Mul (Const (9115117186265681 # 250000000000000000000000000000) (mkU 4 0 (-2) (-8))) (Pow (Var 85) 4)))])]);
   View 87 14 48 Nil;
   View 88 17 49 Nil;
   Frame
    (block [
     Store 88 54 Nil (Div (Mul (Mul (Const (2 # 1) none) (Sel 50 (Var 87) Nil)) (Sel 51 (Var 87) Nil)) (Add (Sel 52 (Var 87) Nil) (Sel 53 (Var 87) Nil)))]);
   View 89 47 55 Nil;
   View 90 37 56 Nil;
   View 91 17 57 Nil;
   View 92 30 58 Nil;
   View 93 29 59 Nil;
   Frame
    (block [
     Store 93 60 Nil (Add (Mul (Div (Var 89) (Var 90)) (Var 91)) (Var 92))]);
   View 94 1 61 Nil;
   View 95 4 62 Nil;
   View 96 50 63 Nil;
   View 97 28 64 Nil;
   View 98 31 65 Nil;
   View 99 3 66 Nil;
   Frame
    (block [
     Store 99 67 Nil (Add (Var 95) (Div (Mul (Sub (Var 94) (Var 95)) (Var 98)) (Mul (Var 97) (Var 96))))]);
   View 100 6 68 Nil;
   View 101 1 69 Nil;
   View 102 15 70 Nil;
   View 103 16 71 Nil;
   View 104 14 72 Nil;
   View 105 47 73 Nil;
   View 106 40 74 Nil;
   View 107 41 75 Nil;
   View 108 27 76 Nil;
   Frame
    (block [
     Let 109 (Fn 77 Nil);
     Let 110 (Const (0 # 1) none);
     Let 111 (Const (0 # 1) none);
     Let 112 (Const (0 # 1) none);
     Let 113 (Div (Var 100) (Mul (Var 102) (Var 105)));
     View 114 106 79 Nil;
     View 115 103 80 Nil;
     View 116 110 81 Nil;
     Frame
      (block [
       Store 116 82 Nil (Div (Mul (Abs (Var 113)) (Var 114)) (Var 115))]);
     View 117 101 83 Nil;
     View 118 111 84 Nil;
     Frame
      (block [
       Store 118 85 Nil (Sub (Add (Sub (Const (62890054099689529 # 5000000000000000) none) (Mul (Const (8781170142941877 # 25000000000000000) (mkU 0 0 0 (-2))) (Var 117))) (Mul (Const (8645096088941217 # 2000000000000000000) (mkU 0 0 0 (-4))) (Pow (Var 117) 2))) (Mul (Const (9587096961594449 # 500000000000000000000) (mkU 0 0 0 (-6))) (Pow (Var 117) 3)))]);
     Let 119 (Mul (Var 110) (Var 111));
     If (Cmp Lt (Sel 86 (Var 100) Nil) (Const (0 # 1) (mkU 0 2 (-2) 0)))
      (block [
       View 120 107 87 Nil])
      (block [
       View 120 107 88 Nil]);
     Let 121 (Cmp Gt (Var 110) (Const (2300 # 1) none));
     Store 112 95 (Cons (Fn 96 (Cons (Var 121) Nil)) Nil) (Fn 94 (Cons (Add (Const (49371 # 1000) none) (Pow (Sub (Mul (Const (1077 # 1000) none) (Fn 93 (Cons (Div (Mul (Sel 89 (Var 119) (Cons (Fn 90 (Cons (Var 121) Nil)) Nil)) (Var 106)) (Sel 91 (Var 120) (Cons (Fn 92 (Cons (Var 121) Nil)) Nil))) Nil))) (Const (7 # 10) none)) 3)) Nil));
     Let 122 (Pow (Sub (Mul (Const (9 # 5) none) (Fn 98 (Cons (Sel 97 (Var 110) (Cons (Var 121) Nil)) Nil))) (Const (3 # 2) none)) (-2));
     Store 112 105 (Cons (Var 121) Nil) (Mul (Div (Mul (Div (Var 122) (Const (8 # 1) none)) (Sel 99 (Var 119) (Cons (Var 121) Nil))) (Add (Const (1 # 1) none) (Mul (Mul (Const (127 # 10) none) (Sub (Fn 101 (Cons (Sel 100 (Var 111) (Cons (Var 121) Nil)) Nil)) (Const (1 # 1) none))) (Fn 102 (Cons (Div (Var 122) (Const (8 # 1) none)) Nil))))) (Add (Const (1 # 1) none) (Div (Fn 104 (Cons (Div (Var 106) (Sel 103 (Var 120) (Cons (Var 121) Nil))) Nil)) (Const (3 # 1) none))));
     Store 108 106 Nil (Div (Mul (Var 112) (Var 104)) (Var 106))]);
   View 123 3 107 Nil;
   View 124 4 108 Nil;
   View 125 42 109 Nil;
   View 126 53 110 Nil;
   View 127 43 111 Nil;
   View 128 28 112 Nil;
   Frame
    (block [
     Let 129 (Const (5463 # 20) (mkU 0 0 0 2));
     Let 130 (Const (177 # 250) none);
     Let 131 (Div (Add (Var 124) (Var 123)) (Const (2 # 1) none));
     Let 132 (Const (0 # 1) (mkU 4 0 (-2) 0));
     Let 133 (Const (0 # 1) (mkU 2 2 (-6) (-2)));
     View 134 131 115 Nil;
     View 135 132 116 Nil;
     Frame
      (block [
       Store 135 117 Nil (Add (Add (Const (13500069264069257 # 1000000000000000000000) (mkU 4 0 (-2) 0)) (Mul (Const (88810389610389459 # 1000000000000000000000000) (mkU 4 0 (-2) (-2))) (Var 134))) (Mul (Const (10974025974025443 # 100000000000000000000000000) (mkU 4 0 (-2) (-4))) (Pow (Var 134) 2)))]);
     View 136 131 118 Nil;
     View 137 133 119 Nil;
     Frame
      (block [
       Store 137 120 Nil (Sub (Add (Const (24358670995670989 # 1000000000000000000) (mkU 2 2 (-6) (-2))) (Mul (Const (76533982683982561 # 1000000000000000000000) (mkU 2 2 (-6) (-4))) (Var 136))) (Mul (Const (42099567099572201 # 1000000000000000000000000) (mkU 2 2 (-6) (-6))) (Pow (Var 136) 2)))]);
     Let 138 (Div (Mul (Mul (Mul (Abs (Sub (Var 123) (Var 124))) (Const (981 # 100) (mkU 2 0 (-4) 0))) (Pow (Var 125) 3)) (Var 130)) (Mul (Add (Var 124) (Var 129)) (Pow (Var 132) 2)));
     If (Var 126)
      (block [
       Let 139 (Const (3466023585520853 # 10000000000000000) none);
       Let 140 (Add (Pow (Add (Const (33 # 40) none) (Mul (Const (387 # 1000) none) (Fn 121 (Cons (Mul (Var 138) (Var 139)) Nil)))) 2) (Div (Mul (Const (87 # 200) none) (Var 125)) (Mul (Const (2 # 1) none) (Var 127))))])
      (block [
       Let 139 (Const (3269207911296459 # 10000000000000000) none);
       Let 140 (Pow (Add (Const (94 # 125) none) (Mul (Const (387 # 1000) none) (Fn 122 (Cons (Mul (Var 138) (Var 139)) Nil)))) 2)]);
     Store 128 123 Nil (Div (Mul (Var 140) (Var 133)) (Var 125))]);
   View 141 49 124 Nil;
   View 142 44 125 Nil;
   View 143 45 126 Nil;
   View 144 46 127 Nil;
   View 145 27 128 Nil;
   View 146 28 129 Nil;
   View 147 23 130 Nil;
   View 148 24 131 Nil;
   View 149 31 132 Nil;
   Frame
    (block [
     Store 149 133 Nil (Div (Var 141) (Add (Add (Add (Div (Const (1 # 1) none) (Var 145)) (Div (Var 142) (Var 147))) (Div (Var 143) (Var 148))) (Div (Var 144) (Var 146))))]);
   View 150 1 134 Nil;
   View 151 48 135 Nil;
   View 152 13 136 Nil;
   View 153 15 137 Nil;
   View 154 25 138 Nil;
   View 155 22 139 Nil;
   View 156 20 140 Nil;
   View 157 26 141 Nil;
   Frame
    (block [
     Store 155 143 Nil (Mul (Var 153) (Sel 142 (Var 152) Nil));
     Store 156 144 Nil (Add (Mul (Var 151) (Var 155)) (Var 154));
     Store 157 147 Nil (Mul (Sel 145 (Var 152) Nil) (Sel 146 (Var 150) Nil))]);
   View 158 5 148 Nil;
   View 159 35 149 Nil;
   View 160 34 150 Nil;
   View 161 1 151 Nil;
   View 162 20 152 Nil;
   View 163 32 153 Nil;
   View 164 33 154 Nil;
   View 165 51 155 Nil;
   View 166 38 156 Nil;
   View 167 37 157 Nil;
   View 168 14 158 Nil;
   View 169 18 159 Nil;
   View 170 19 160 Nil;
   View 171 2 161 Nil;
   Frame
    (block [
     Let 172 (Const (0 # 1) (mkU 0 0 (-2) 2));
     For 173 182 (Cons (Fn 163 Nil) Nil)
      (block [
       View 174 158 164 (Cons (Sel 165 (Var 159) (Cons (Var 173) Nil)) Nil);
       View 175 160 166 (Cons (Var 173) Nil);
       Store 171 167 (Cons (Var 173) Nil) (Var 174);
       View 176 174 168 Nil;
       Frame
        (block [
         Let 177 (Add (Sub (Add (Sub (Const (5269252946772499 # 1250000000000) (mkU 4 0 (-4) (-2))) (Mul (Const (7213485820879837 # 2500000000000000) (mkU 4 0 (-4) (-4))) (Var 176))) (Mul (Const (468161292800073 # 6250000000000000) (mkU 4 0 (-4) (-6))) (Pow (Var 176) 2))) (Mul (Const (77807143441700321 # 100000000000000000000) (mkU 4 0 (-4) (-8))) (Pow (Var 176) 3))) (Mul (Const (501708265162663 # 156250000000000000000) (mkU 4 0 (-4) (-10))) (Pow (Var 176) 4)));
         Return]);
       Store 169 169 (Cons (Var 173) Nil) (Var 177);
       View 178 174 170 Nil;
       Frame
        (block [
         Let 179 (Sub (Sub (Add (Const (56987912853229539 # 100000000000000000) (mkU 2 2 (-6) (-2))) (Mul (Const (8939185201272869 # 5000000000000000000) (mkU 2 2 (-6) (-4))) (Var 178))) (Mul (Const (11999643454775959 # 2000000000000000000000) (mkU 2 2 (-6) (-6))) (Pow (Var 178) 2))) (Mul (Const (86964577115093407 # 10000000000000000000000000) (mkU 2 2 (-6) (-8))) (Pow (Var 178) 3)));
         Return]);
       Store 170 171 (Cons (Var 173) Nil) (Var 179);
       Store 163 177 (Cons (Var 173) Nil) (Add (Div (Sel 172 (Var 165) (Cons (Var 173) Nil)) (Add (Div (Sel 173 (Var 166) (Cons (Var 173) Nil)) (Mul (Const (2 # 1) none) (Sel 174 (Var 170) (Cons (Var 173) Nil)))) (Div (Var 167) (Mul (Const (2 # 1) none) (Sel 175 (Var 168) (Cons (Var 175) Nil)))))) (Sel 176 (Var 164) (Cons (Var 173) Nil)));
       Store 172 181 (Cons (Var 173) Nil) (Div (Mul (Sel 178 (Var 163) (Cons (Var 173) Nil)) (Sub (Var 174) (Sel 179 (Var 161) (Cons (Var 175) Nil)))) (Sel 180 (Var 162) (Cons (Var 175) Nil)))]);
     View 180 172 183 Nil;
     Return]);
   View 181 180 184 Nil;
   View 182 55 185 Nil;
   View 183 56 186 Nil;
   View 184 29 187 Nil;
   View 185 32 188 Nil;
   View 186 31 189 Nil;
   View 187 6 190 Nil;
   View 188 15 191 Nil;
   View 189 22 192 Nil;
   View 190 37 193 Nil;
   View 191 39 194 Nil;
   View 192 47 195 Nil;
   View 193 51 196 Nil;
   View 194 50 197 Nil;
   View 195 43 198 Nil;
   View 196 48 199 Nil;
   View 197 54 200 Nil;
   View 198 57 201 Nil;
   View 199 58 202 Nil;
   View 200 59 203 Nil;
   View 201 60 204 Nil;
   Frame
    (block [
     Let 202 (Const (0 # 1) none);
     Store 202 208 Nil (Div (Mul (Red Maxi 207 (Div (Sel 205 (Var 184) Nil) (Sel 206 (Var 189) Nil))) (Var 201)) (Mul (Var 192) (Var 190)));
     Store 202 211 Nil (Div (Mul (Red Maxi 209 (Div (Var 185) (Mul (Var 193) (Var 191)))) (Var 201)) (Red Maxi 210 (Var 189)));
     Store 202 213 Nil (Div (Mul (Red Maxi 212 (Div (Var 186) (Var 189))) (Var 201)) (Mul (Var 194) (Var 195)));
     Let 203 (Red Maxi 214 (Var 202));
     Let 204 (Mul (Var 196) (Red Maxi 215 (Var 188)));
     Let 205 (Div (Mul (Red Maxi 216 (Abs (Var 187))) (Var 201)) (Var 204));
     Let 206 (Div (Var 203) (Const (1 # 2) none));
     Let 207 (Div (Var 205) (Const (1 # 1) none));
     Let 208 (Max (Var 206) (Var 207));
     If (Cmp Gt (Var 208) (Const (1 # 1) none))
      (block [
       If (Const (1 # 1) none)
        (block [
         Store 197 217 Nil (Const (0 # 1) none);
         Store 183 218 Nil (Add (Var 183) (Const (1 # 1) none));
         Let 209 (Mul (Div (Var 201) (Var 208)) (Const (19 # 20) none));
         If (Cmp Gt (Sel 219 (Var 198) Nil) (Var 209))
          (block [
           Store 198 220 Nil (Var 209)])
          Skip;
         If (Cmp Gt (Sel 221 (Var 199) Nil) (Const (21 # 20) none))
          (block [
           Store 199 224 Nil (Fn 223 (Cons (Sel 222 (Var 199) Nil) Nil));
           If (Cmp Lt (Sel 225 (Var 199) Nil) (Const (21 # 20) none))
            (block [
             Store 199 226 Nil (Const (21 # 20) none)])
            Skip])
          Skip])
        (block [
         Raise])])
      Skip;
     View 210 197 227 Nil;
     View 211 198 228 Nil;
     View 212 199 229 Nil;
     Return]);
   View 54 210 230 Nil;
   View 57 211 231 Nil;
   View 58 212 232 Nil;
   Store 64 233 Nil (Div (Mul (Var 10) (Var 36)) (Var 21));
   Store 61 242 Nil (Div (Add (Add (Mul (Sel 234 (Var 29) Nil) (Sub (Sel 235 (Var 1) Nil) (Sel 236 (Var 1) Nil))) (Mul (Sel 237 (Var 29) Nil) (Sub (Sel 238 (Var 1) Nil) (Sel 239 (Var 1) Nil)))) (Mul (Var 31) (Sub (Sel 240 (Var 4) Nil) (Sel 241 (Var 1) Nil)))) (Var 20));
   Store 62 247 Nil (Div (Add (Mul (Var 7) (Sub (Mul (Sel 243 (Var 13) Nil) (Sel 244 (Var 1) Nil)) (Var 26))) (Mul (Var 8) (Sub (Mul (Sel 245 (Var 13) Nil) (Sel 246 (Var 1) Nil)) (Var 26)))) (Var 20));
   For 213 260 (Cons (Fn 248 Nil) Nil)
    (block [
     View 214 34 249 (Cons (Var 213) Nil);
     Store 61 252 (Cons (Var 214) Nil) (Add (Sel 250 (Var 61) (Cons (Var 214) Nil)) (Sel 251 (Var 181) (Cons (Var 213) Nil)));
     Store 62 259 (Cons (Var 214) Nil) (Add (Sel 253 (Var 62) (Cons (Var 214) Nil)) (Div (Mul (Sel 254 (Var 9) (Cons (Var 213) Nil)) (Sub (Mul (Sel 255 (Var 18) (Cons (Var 213) Nil)) (Sel 256 (Var 2) (Cons (Var 213) Nil))) (Sel 257 (Var 26) (Cons (Var 214) Nil)))) (Sel 258 (Var 20) (Cons (Var 214) Nil))))]);
   Let 215 (Add (Add (Var 61) (Var 62)) (Var 63));
   View 216 215 261 Nil;
   View 217 52 262 Nil;
   View 218 54 263 Nil;
   View 219 57 264 Nil;
   View 220 58 265 Nil;
   Return]).
(** multisim/precomp_funs.py 2095 *)
Definition f_tes_diff : func := mkF "tes_diff" 2095
  [("T_ext", 1); ("T_port", 2); ("T_s", 3); ("T_s_lid", 4); ("T_amb", 5); ("ports_all", 6); ("dm_io", 7); ("dm", 8); ("dm_top", 9); ("dm_bot", 10); ("dm_port", 11); ("res_dm", 12); ("cp_T", 13); ("lam_T", 14); ("rho_T", 15); ("ny_T", 16); ("lam_mean", 17); ("cp_port", 18); ("lam_port_fld", 19); ("mcp", 20); ("rhocp", 21); ("lam_wll", 22); ("lam_ins", 23); ("mcp_wll", 24); ("ui", 25); ("alpha_i", 26); ("alpha_inf", 27); ("UA_tb", 28); ("UA_tb_wll", 29); ("UA_amb_shell", 30); ("UA_amb_lid", 31); ("UA_port", 32); ("UA_port_wll", 33); ("port_own_idx", 34); ("port_link_idx", 35); ("grid_spacing", 36); ("port_gsp", 37); ("port_subs_gsp", 38); ("d_i", 39); ("cell_dist", 40); ("flow_length", 41); ("flow_length_lid", 42); ("r_total", 43); ("r_ln_wll", 44); ("r_ln_ins", 45); ("r_rins", 46); ("s_wll", 47); ("s_ins", 48); ("A_cell", 49); ("V_cell", 50); ("A_shell_i", 51); ("A_shell_ins", 52); ("A_p_fld_mean", 53); ("process_flows", 54); ("vertical", 55); ("vertical_lid", 56); ("lid_top", 57); ("step_stable", 58); ("part_id", 59); ("stability_breaches", 60); ("vN_max_step", 61); ("max_factor", 62); ("stepnum", 63); ("dT_cond", 64); ("dT_adv", 65); ("dT_total", 66); ("timestep", 67)]
  [306; 307; 308; 309; 310; 311]
  [(1, (mkU 0 0 0 2)); (2, (mkU 0 0 0 2)); (3, (mkU 0 0 0 2)); (4, (mkU 0 0 0 2)); (5, (mkU 0 0 0 2)); (6, (mkU 0 0 0 2)); (7, (mkU 0 2 (-2) 0)); (8, (mkU 0 2 (-2) 0)); (9, (mkU 0 2 (-2) 0)); (10, (mkU 0 2 (-2) 0)); (11, (mkU 0 2 (-2) 0)); (12, (mkU 0 2 (-2) 0)); (13, (mkU 4 0 (-4) (-2))); (14, (mkU 2 2 (-6) (-2))); (15, (mkU (-6) 2 0 0)); (16, (mkU 4 0 (-2) 0)); (17, (mkU 2 2 (-6) (-2))); (18, (mkU 4 0 (-4) (-2))); (19, (mkU 2 2 (-6) (-2))); (20, (mkU 4 2 (-4) (-2))); (21, (mkU (-2) 2 (-4) (-2))); (22, (mkU 2 2 (-6) (-2))); (23, (mkU 2 2 (-6) (-2))); (24, (mkU 4 2 (-4) (-2))); (25, (mkU 4 0 (-4) 0)); (26, (mkU 0 2 (-6) (-2))); (27, (mkU 0 2 (-6) (-2))); (28, (mkU 4 2 (-6) (-2))); (29, (mkU 4 2 (-6) (-2))); (30, (mkU 4 2 (-6) (-2))); (31, (mkU 4 2 (-6) (-2))); (32, (mkU 4 2 (-6) (-2))); (33, (mkU 4 2 (-6) (-2))); (36, (mkU 2 0 0 0)); (37, (mkU 2 0 0 0)); (38, (mkU 2 0 0 0)); (39, (mkU 2 0 0 0)); (40, (mkU 2 0 0 0)); (41, (mkU 2 0 0 0)); (42, (mkU 2 0 0 0)); (43, (mkU 2 0 0 0)); (44, (mkU 2 0 0 0)); (45, (mkU 2 0 0 0)); (47, (mkU 2 0 0 0)); (48, (mkU 2 0 0 0)); (49, (mkU 4 0 0 0)); (50, (mkU 6 0 0 0)); (51, (mkU 4 0 0 0)); (52, (mkU 4 0 0 0)); (53, (mkU 4 0 0 0)); (61, (mkU 0 0 2 0)); (64, (mkU 0 0 (-2) 2)); (65, (mkU 0 0 (-2) 2)); (66, (mkU 0 0 (-2) 2)); (67, (mkU 0 0 2 0)); (69, (mkU 0 2 (-2) 0)); (70, (mkU 0 2 (-2) 0)); (71, (mkU 0 2 (-2) 0)); (72, (mkU 0 2 (-2) 0)); (73, (mkU 0 2 (-2) 0)); (76, (mkU 0 2 (-2) 0)); (77, (mkU 0 2 (-2) 0)); (79, (mkU 0 2 (-2) 0)); (81, (mkU 0 0 0 2)); (82, (mkU 4 0 (-4) (-2))); (83, (mkU 2 2 (-6) (-2))); (84, (mkU (-6) 2 0 0)); (85, (mkU 4 0 (-2) 0)); (86, (mkU 0 0 0 2)); (87, (mkU 4 0 (-4) (-2))); (88, (mkU 0 0 0 2)); (89, (mkU 2 2 (-6) (-2))); (90, (mkU 0 0 0 2)); (91, (mkU (-6) 2 0 0)); (92, (mkU 0 0 0 2)); (93, (mkU 4 0 (-2) 0)); (94, (mkU 2 2 (-6) (-2))); (95, (mkU 2 2 (-6) (-2))); (96, (mkU 0 0 0 2)); (97, (mkU 4 0 (-2) 0)); (98, (mkU 2 0 0 0)); (99, (mkU 2 2 (-6) (-2))); (100, (mkU 0 0 0 2)); (104, (mkU 0 0 0 2)); (107, (mkU 0 0 0 2)); (108, (mkU 0 0 0 (-2))); (109, (mkU 0 0 0 (-2))); (110, (mkU 2 0 0 0)); (115, (mkU 4 0 0 0)); (116, (mkU 2 0 0 0)); (117, (mkU 2 2 (-6) (-2))); (118, (mkU 4 2 (-6) (-2))); (119, (mkU 4 2 (-6) (-2))); (120, (mkU 0 0 0 2)); (121, (mkU 0 0 0 2)); (122, (mkU 4 0 0 0)); (123, (mkU 0 2 (-6) (-2))); (124, (mkU 4 2 (-6) (-2))); (125, (mkU 0 0 0 2)); (126, (mkU 0 2 (-2) 0)); (127, (mkU 0 0 0 2)); (128, (mkU (-6) 2 0 0)); (129, (mkU 4 0 (-2) 0)); (130, (mkU 2 2 (-6) (-2))); (131, (mkU 4 0 0 0)); (132, (mkU 2 0 0 0)); (133, (mkU 2 0 0 0)); (134, (mkU 0 2 (-6) (-2))); (139, (mkU 2 0 (-2) 0)); (140, (mkU 2 0 0 0)); (141, (mkU 4 0 (-2) 0)); (143, (mkU 0 0 0 2)); (146, (mkU 2 0 0 0)); (149, (mkU 0 0 0 2)); (150, (mkU 0 0 0 2)); (151, (mkU 2 0 0 0)); (153, (mkU 2 0 0 0)); (154, (mkU 0 2 (-6) (-2))); (155, (mkU 0 0 0 2)); (157, (mkU 0 0 0 2)); (158, (mkU 4 0 (-2) 0)); (159, (mkU 2 2 (-6) (-2))); (160, (mkU 0 0 0 2)); (161, (mkU 4 0 (-2) 0)); (162, (mkU 0 0 0 2)); (163, (mkU 2 2 (-6) (-2))); (167, (mkU 0 0 0 2)); (168, (mkU 0 0 0 2)); (169, (mkU 2 0 0 0)); (172, (mkU 0 2 (-6) (-2))); (173, (mkU 0 0 0 2)); (174, (mkU 0 0 0 2)); (175, (mkU 2 0 0 0)); (176, (mkU 0 0 0 2)); (178, (mkU 0 0 0 2)); (179, (mkU 4 0 (-2) 0)); (180, (mkU 2 2 (-6) (-2))); (181, (mkU 0 0 0 2)); (182, (mkU 4 0 (-2) 0)); (183, (mkU 0 0 0 2)); (184, (mkU 2 2 (-6) (-2))); (186, (mkU 0 0 0 2)); (187, (mkU 0 0 0 2)); (189, (mkU 4 0 (-2) 0)); (190, (mkU 0 0 0 2)); (191, (mkU 2 0 0 0)); (194, (mkU 0 2 (-6) (-2))); (195, (mkU 0 0 0 2)); (196, (mkU 0 0 0 2)); (197, (mkU 2 0 0 0)); (199, (mkU 0 0 0 2)); (201, (mkU 0 0 0 2)); (202, (mkU 0 0 0 2)); (203, (mkU 4 0 (-2) 0)); (204, (mkU 4 0 (-2) 0)); (205, (mkU 0 0 0 2)); (206, (mkU 2 2 (-6) (-2))); (207, (mkU 2 2 (-6) (-2))); (209, (mkU 0 0 0 2)); (210, (mkU 0 0 0 2)); (212, (mkU 4 0 (-2) 0)); (213, (mkU 0 0 0 2)); (214, (mkU 2 0 0 0)); (220, (mkU 0 2 (-6) (-2))); (221, (mkU 0 2 (-6) (-2))); (222, (mkU 4 0 0 0)); (223, (mkU 2 0 0 0)); (224, (mkU 2 0 0 0)); (226, (mkU 0 2 (-6) (-2))); (227, (mkU 0 2 (-6) (-2))); (228, (mkU 2 2 (-6) (-2))); (229, (mkU 2 2 (-6) (-2))); (230, (mkU 4 2 (-6) (-2))); (231, (mkU 4 0 0 0)); (232, (mkU 2 0 0 0)); (233, (mkU 2 0 0 0)); (234, (mkU 0 2 (-6) (-2))); (235, (mkU 0 2 (-6) (-2))); (236, (mkU 2 2 (-6) (-2))); (237, (mkU 2 2 (-6) (-2))); (238, (mkU 4 2 (-6) (-2))); (239, (mkU 0 0 0 2)); (240, (mkU 6 0 0 0)); (241, (mkU 4 0 (-4) (-2))); (242, (mkU (-6) 2 0 0)); (243, (mkU 4 2 (-4) (-2))); (244, (mkU (-2) 2 (-4) (-2))); (245, (mkU 4 2 (-4) (-2))); (246, (mkU 4 0 (-4) 0)); (247, (mkU 0 0 0 2)); (250, (mkU 0 0 0 2)); (251, (mkU 4 2 (-4) (-2))); (252, (mkU 4 2 (-6) (-2))); (253, (mkU 4 2 (-6) (-2))); (254, (mkU 4 0 0 0)); (255, (mkU 2 0 0 0)); (256, (mkU 2 0 0 0)); (257, (mkU 2 2 (-6) (-2))); (258, (mkU 4 0 (-4) (-2))); (259, (mkU 2 2 (-6) (-2))); (260, (mkU 0 0 0 2)); (261, (mkU 0 0 (-2) 2)); (263, (mkU 0 0 0 2)); (265, (mkU 0 0 0 2)); (266, (mkU 4 0 (-4) (-2))); (267, (mkU 0 0 0 2)); (268, (mkU 2 2 (-6) (-2))); (269, (mkU 0 0 (-2) 2)); (270, (mkU 0 0 (-2) 2)); (273, (mkU 4 2 (-6) (-2))); (274, (mkU 4 2 (-6) (-2))); (275, (mkU 4 2 (-6) (-2))); (276, (mkU 0 2 (-2) 0)); (277, (mkU 0 2 (-2) 0)); (278, (mkU 0 2 (-2) 0)); (279, (mkU (-6) 2 0 0)); (280, (mkU (-2) 2 (-4) (-2))); (281, (mkU 2 0 0 0)); (282, (mkU 2 0 0 0)); (283, (mkU 4 0 0 0)); (284, (mkU 4 0 0 0)); (285, (mkU 4 0 0 0)); (286, (mkU 2 0 0 0)); (287, (mkU 6 0 0 0)); (289, (mkU 0 0 2 0)); (292, (mkU 0 0 2 0)); (295, (mkU 0 2 0 0)); (300, (mkU 0 0 2 0)); (302, (mkU 0 0 2 0)); (306, (mkU 0 0 (-2) 2)); (309, (mkU 0 0 2 0)); (311, (mkU 0 2 (-6) (-2)))]
  (block [
   View 68 54 1 Nil;
   View 69 7 2 Nil;
   View 70 8 3 Nil;
   View 71 9 4 Nil;
   View 72 10 5 Nil;
   View 73 11 6 Nil;
   View 74 34 7 Nil;
   View 75 63 8 Nil;
   View 76 12 9 Nil;
   Frame
    (block [
     If (Sel 10 (Var 68) Nil)
      (block [
       Store 70 11 Nil (Const (0 # 1) (mkU 0 2 (-2) 0));
       Let 77 (Red Sum 12 (Var 69));
       For 78 21 (Cons (Sub (Fn 13 Nil) (Const (1 # 1) none)) Nil)
        (block [
         Store 70 18 (Cons (Sel 19 (Var 74) (Cons (Var 78) Nil)) (Cons (Sel 20 (Var 74) (Cons (Add (Var 78) (Const (1 # 1) none)) Nil)) Nil)) (Add (Sel 14 (Var 70) (Cons (Sel 15 (Var 74) (Cons (Var 78) Nil)) (Cons (Sel 16 (Var 74) (Cons (Add (Var 78) (Const (1 # 1) none)) Nil)) Nil))) (Sel 17 (Var 77) (Cons (Var 78) Nil)))]);
       Store 73 22 Nil (Var 69);
       Store 71 24 Nil (Sel 23 (Var 70) Nil);
       Store 72 26 Nil (Neg (Sel 25 (Var 70) Nil));
       Store 71 27 (Cons (Cmp Lt (Var 71) (Const (0 # 1) (mkU 0 2 (-2) 0))) Nil) (Const (0 # 1) (mkU 0 2 (-2) 0));
       Store 72 28 (Cons (Cmp Lt (Var 72) (Const (0 # 1) (mkU 0 2 (-2) 0))) Nil) (Const (0 # 1) (mkU 0 2 (-2) 0));
       View 79 73 29 Nil;
       Store 79 30 (Cons (Cmp Lt (Var 79) (Const (0 # 1) (mkU 0 2 (-2) 0))) Nil) (Const (0 # 1) (mkU 0 2 (-2) 0));
       Store 70 32 Nil (Sel 31 (Var 70) Nil);
       Store 76 33 (Cons (Sel 34 (Var 75) Nil) Nil) (Var 70)])
      Skip;
     Let 80 (Const (0 # 1) none);
     Return]);
   Store 54 35 Nil (Var 80);
   View 81 1 36 Nil;
   View 82 13 37 Nil;
   View 83 14 38 Nil;
   View 84 15 39 Nil;
   View 85 16 40 Nil;
   Frame
    (block [
     View 86 81 41 Nil;
     View 87 82 42 Nil;
     Frame
      (block [
       Store 87 43 Nil (Add (Sub (Add (Sub (Const (5269252946772499 # 1250000000000) (mkU 4 0 (-4) (-2))) (Mul (Const (7213485820879837 # 2500000000000000) (mkU 4 0 (-4) (-4))) (Var 86))) (Mul (Const (468161292800073 # 6250000000000000) (mkU 4 0 (-4) (-6))) (Pow (Var 86) 2))) (Mul (Const (77807143441700321 # 100000000000000000000) (mkU 4 0 (-4) (-8))) (Pow (Var 86) 3))) (Mul (Const (501708265162663 # 156250000000000000000) (mkU 4 0 (-4) (-10))) (Pow (Var 86) 4)))]);
     View 88 81 44 Nil;
     View 89 83 45 Nil;
     Frame
      (block [
       Store 89 46 Nil (Sub (Sub (Add (Const (56987912853229539 # 100000000000000000) (mkU 2 2 (-6) (-2))) (Mul (Const (8939185201272869 # 5000000000000000000) (mkU 2 2 (-6) (-4))) (Var 88))) (Mul (Const (11999643454775959 # 2000000000000000000000) (mkU 2 2 (-6) (-6))) (Pow (Var 88) 2))) (Mul (Const (86964577115093407 # 10000000000000000000000000) (mkU 2 2 (-6) (-8))) (Pow (Var 88) 3)))]);
     View 90 81 47 Nil;
     View 91 84 48 Nil;
     Frame
      (block [
       Store 91 49 Nil (Sub (Add (Sub (Add (Const (99988785713136213 # 100000000000000) (mkU (-6) 2 0 0)) (Mul (Const (24802227495264801 # 500000000000000000) (mkU (-6) 2 0 (-2))) (Var 90))) (Mul (Const (74722666453460717 # 10000000000000000000) (mkU (-6) 2 0 (-4))) (Pow (Var 90) 2))) (Mul (Const (10273621109538621 # 250000000000000000000) (mkU (-6) 2 0 (-6))) (Pow (Var 90) 3))) (Mul (Const (6457894773161807 # 50000000000000000000000) (mkU (-6) 2 0 (-8))) (Pow (Var 90) 4)))]);
     View 92 81 50 Nil;
     View 93 85 51 Nil;
     Frame
      (block [
       Store 93 52 Nil (Add (Sub (Add (Sub (Const (3552894676098831 # 2000000000000000000000) (mkU 4 0 (-2) 0)) (Mul (Const (13910068945316351 # 250000000000000000000000) (mkU 4 0 (-2) (-2))) (Var 92))) (Mul (Const (5121536443747213 # 5000000000000000000000000) (mkU 4 0 (-2) (-4))) (Pow (Var 92) 2))) (Mul (Const (19590892027396233 # 2000000000000000000000000000) (mkU 4 0 (-2) (-6))) (Pow (Var 92) 3))) (Mul (Const (9115117186265681 # 250000000000000000000000000000) (mkU 4 0 (-2) (-8))) (Pow (Var 92) 4)))])]);
   View 94 14 53 Nil;
   View 95 17 54 Nil;
   Frame
    (block [
     Store 95 59 Nil (Div (Mul (Mul (Const (2 # 1) none) (Sel 55 (Var 94) Nil)) (Sel 56 (Var 94) Nil)) (Add (Sel 57 (Var 94) Nil) (Sel 58 (Var 94) Nil)))]);
   View 96 1 60 Nil;
   View 97 16 61 Nil;
   View 98 39 62 Nil;
   View 99 17 63 Nil;
   Frame
    (block [
     Let 100 (Sub (Sel 64 (Var 96) Nil) (Sel 65 (Var 96) Nil));
     If (Fn 66 (Cons (Cmp Le (Var 100) (Const (0 # 1) (mkU 0 0 0 2))) Nil))
      (block [
       Return])
      Skip;
     Store 100 67 (Cons (Cmp Lt (Var 100) (Const (0 # 1) (mkU 0 0 0 2))) Nil) (Const (0 # 1) (mkU 0 0 0 2));
     Let 101 (Const (20 # 1) none);
     Let 102 (Sub (Fn 68 Nil) (Const (1 # 1) none));
     Let 103 (Const (0 # 1) none);
     View 104 96 69 Nil;
     Frame
      (block [
       Let 105 (Sub (Add (Sub (Const (62890054099689529 # 5000000000000000) none) (Mul (Const (8781170142941877 # 25000000000000000) (mkU 0 0 0 (-2))) (Var 104))) (Mul (Const (8645096088941217 # 2000000000000000000) (mkU 0 0 0 (-4))) (Pow (Var 104) 2))) (Mul (Const (9587096961594449 # 500000000000000000000) (mkU 0 0 0 (-6))) (Pow (Var 104) 3)));
       Return]);
     View 106 105 70 Nil;
     View 107 96 71 Nil;
     Frame
      (block [
       Let 108 (Add (Sub (Add (Neg (Const (293992682383333 # 5000000000000000000) (mkU 0 0 0 (-2)))) (Mul (Const (15641955219950547 # 1000000000000000000000) (mkU 0 0 0 (-4))) (Var 107))) (Mul (Const (13587684743777981 # 100000000000000000000000) (mkU 0 0 0 (-6))) (Pow (Var 107) 2))) (Mul (Const (30610251654074543 # 50000000000000000000000000) (mkU 0 0 0 (-8))) (Pow (Var 107) 3)));
       Return]);
     View 109 108 72 Nil;
     Store 109 74 (Cons (Cmp Lt (Var 109) (Const (0 # 1) (mkU 0 0 0 (-2)))) Nil) (Mul (Sel 73 (Var 109) (Cons (Cmp Lt (Var 109) (Const (0 # 1) (mkU 0 0 0 (-2)))) Nil)) (Neg (Const (1 # 1) none)));
     Let 110 (Div (Var 98) (Const (4 # 1) none));
     Let 111 (Div (Mul (Mul (Mul (Mul (Var 106) (Const (981 # 100) (mkU 2 0 (-4) 0))) (Pow (Var 110) 3)) (Var 109)) (Var 100)) (Pow (Sel 75 (Var 97) Nil) 2));
     Let 112 (Mul (Var 111) (Fn 77 (Cons (Add (Const (1 # 1) none) (Fn 76 (Cons (Div (Const (161 # 500) none) (Var 106)) Nil))) Nil)));
     Let 113 (Cmp Gt (Var 112) (Const (70000 # 1) none));
     Store 103 81 (Cons (Fn 82 (Cons (Var 113) Nil)) Nil) (Mul (Const (383 # 500) none) (Fn 80 (Cons (Sel 78 (Var 112) (Cons (Fn 79 (Cons (Var 113) Nil)) Nil)) Nil)));
     Store 103 85 (Cons (Var 113) Nil) (Mul (Const (3 # 20) none) (Fn 84 (Cons (Sel 83 (Var 112) (Cons (Var 113) Nil)) Nil)));
     Let 114 (Cmp Ge (Var 103) (Const (1 # 1) none));
     Store 99 88 (Cons (Var 114) Nil) (Mul (Sel 86 (Var 99) (Cons (Var 114) Nil)) (Mul (Sel 87 (Var 103) (Cons (Var 114) Nil)) (Var 101)))]);
   View 115 49 89 Nil;
   View 116 36 90 Nil;
   View 117 17 91 Nil;
   View 118 29 92 Nil;
   View 119 28 93 Nil;
   Frame
    (block [
     Store 119 94 Nil (Add (Mul (Div (Var 115) (Var 116)) (Var 117)) (Var 118))]);
   View 120 1 95 Nil;
   View 121 5 96 Nil;
   View 122 52 97 Nil;
   View 123 27 98 Nil;
   View 124 30 99 Nil;
   View 125 3 100 Nil;
   Frame
    (block [
     Store 125 101 Nil (Add (Var 121) (Div (Mul (Sub (Var 120) (Var 121)) (Var 124)) (Mul (Var 123) (Var 122))))]);
   View 126 8 102 Nil;
   View 127 1 103 Nil;
   View 128 15 104 Nil;
   View 129 16 105 Nil;
   View 130 14 106 Nil;
   View 131 49 107 Nil;
   View 132 39 108 Nil;
   View 133 40 109 Nil;
   View 134 26 110 Nil;
   Frame
    (block [
     Let 135 (Fn 111 Nil);
     Let 136 (Const (0 # 1) none);
     Let 137 (Const (0 # 1) none);
     Let 138 (Const (0 # 1) none);
     Let 139 (Div (Var 126) (Mul (Var 128) (Var 131)));
     View 140 132 113 Nil;
     View 141 129 114 Nil;
     View 142 136 115 Nil;
     Frame
      (block [
       Store 142 116 Nil (Div (Mul (Abs (Var 139)) (Var 140)) (Var 141))]);
     View 143 127 117 Nil;
     View 144 137 118 Nil;
     Frame
      (block [
       Store 144 119 Nil (Sub (Add (Sub (Const (62890054099689529 # 5000000000000000) none) (Mul (Const (8781170142941877 # 25000000000000000) (mkU 0 0 0 (-2))) (Var 143))) (Mul (Const (8645096088941217 # 2000000000000000000) (mkU 0 0 0 (-4))) (Pow (Var 143) 2))) (Mul (Const (9587096961594449 # 500000000000000000000) (mkU 0 0 0 (-6))) (Pow (Var 143) 3)))]);
     Let 145 (Mul (Var 136) (Var 137));
     If (Cmp Lt (Sel 120 (Var 126) Nil) (Const (0 # 1) (mkU 0 2 (-2) 0)))
      (block [
       View 146 133 121 Nil])
      (block [
       View 146 133 122 Nil]);
     Let 147 (Cmp Gt (Var 136) (Const (2300 # 1) none));
     Store 138 129 (Cons (Fn 130 (Cons (Var 147) Nil)) Nil) (Fn 128 (Cons (Add (Const (49371 # 1000) none) (Pow (Sub (Mul (Const (1077 # 1000) none) (Fn 127 (Cons (Div (Mul (Sel 123 (Var 145) (Cons (Fn 124 (Cons (Var 147) Nil)) Nil)) (Var 132)) (Sel 125 (Var 146) (Cons (Fn 126 (Cons (Var 147) Nil)) Nil))) Nil))) (Const (7 # 10) none)) 3)) Nil));
     Let 148 (Pow (Sub (Mul (Const (9 # 5) none) (Fn 132 (Cons (Sel 131 (Var 136) (Cons (Var 147) Nil)) Nil))) (Const (3 # 2) none)) (-2));
     Store 138 139 (Cons (Var 147) Nil) (Mul (Div (Mul (Div (Var 148) (Const (8 # 1) none)) (Sel 133 (Var 145) (Cons (Var 147) Nil))) (Add (Const (1 # 1) none) (Mul (Mul (Const (127 # 10) none) (Sub (Fn 135 (Cons (Sel 134 (Var 137) (Cons (Var 147) Nil)) Nil)) (Const (1 # 1) none))) (Fn 136 (Cons (Div (Var 148) (Const (8 # 1) none)) Nil))))) (Add (Const (1 # 1) none) (Div (Fn 138 (Cons (Div (Var 132) (Sel 137 (Var 146) (Cons (Var 147) Nil))) Nil)) (Const (3 # 1) none))));
     Store 134 140 Nil (Div (Mul (Var 138) (Var 130)) (Var 132))]);
   View 149 3 141 Nil;
   View 150 5 142 Nil;
   View 151 41 143 Nil;
   View 152 55 144 Nil;
   View 153 43 145 Nil;
   View 154 27 146 Nil;
   Frame
    (block [
     Let 155 (Const (5463 # 20) (mkU 0 0 0 2));
     Let 156 (Const (177 # 250) none);
     Let 157 (Div (Add (Var 150) (Var 149)) (Const (2 # 1) none));
     Let 158 (Const (0 # 1) (mkU 4 0 (-2) 0));
     Let 159 (Const (0 # 1) (mkU 2 2 (-6) (-2)));
     View 160 157 149 Nil;
     View 161 158 150 Nil;
     Frame
      (block [
       Store 161 151 Nil (Add (Add (Const (13500069264069257 # 1000000000000000000000) (mkU 4 0 (-2) 0)) (Mul (Const (88810389610389459 # 1000000000000000000000000) (mkU 4 0 (-2) (-2))) (Var 160))) (Mul (Const (10974025974025443 # 100000000000000000000000000) (mkU 4 0 (-2) (-4))) (Pow (Var 160) 2)))]);
     View 162 157 152 Nil;
     View 163 159 153 Nil;
     Frame
      (block [
       Store 163 154 Nil (Sub (Add (Const (24358670995670989 # 1000000000000000000) (mkU 2 2 (-6) (-2))) (Mul (Const (76533982683982561 # 1000000000000000000000) (mkU 2 2 (-6) (-4))) (Var 162))) (Mul (Const (42099567099572201 # 1000000000000000000000000) (mkU 2 2 (-6) (-6))) (Pow (Var 162) 2)))]);
     Let 164 (Div (Mul (Mul (Mul (Abs (Sub (Var 149) (Var 150))) (Const (981 # 100) (mkU 2 0 (-4) 0))) (Pow (Var 151) 3)) (Var 156)) (Mul (Add (Var 150) (Var 155)) (Pow (Var 158) 2)));
     If (Var 152)
      (block [
       Let 165 (Const (3466023585520853 # 10000000000000000) none);
       Let 166 (Add (Pow (Add (Const (33 # 40) none) (Mul (Const (387 # 1000) none) (Fn 155 (Cons (Mul (Var 164) (Var 165)) Nil)))) 2) (Div (Mul (Const (87 # 200) none) (Var 151)) (Mul (Const (2 # 1) none) (Var 153))))])
      (block [
       Let 165 (Const (3269207911296459 # 10000000000000000) none);
       Let 166 (Pow (Add (Const (94 # 125) none) (Mul (Const (387 # 1000) none) (Fn 156 (Cons (Mul (Var 164) (Var 165)) Nil)))) 2)]);
     Store 154 157 Nil (Div (Mul (Var 166) (Var 159)) (Var 151))]);
   View 167 4 158 Nil;
   View 168 5 159 Nil;
   View 169 42 160 Nil;
   View 170 56 161 Nil;
   View 171 57 162 Nil;
   Frame
    (block [
     If (Var 170)
      (block [
       View 173 167 163 Nil;
       View 174 168 164 Nil;
       View 175 169 165 Nil;
       Frame
        (block [
         Let 176 (Const (5463 # 20) (mkU 0 0 0 2));
         Let 177 (Const (177 # 250) none);
         Let 178 (Div (Add (Var 174) (Var 173)) (Const (2 # 1) none));
         Let 179 (Const (0 # 1) (mkU 4 0 (-2) 0));
         Let 180 (Const (0 # 1) (mkU 2 2 (-6) (-2)));
         View 181 178 168 Nil;
         View 182 179 169 Nil;
         Frame
          (block [
           Store 182 170 Nil (Add (Add (Const (13500069264069257 # 1000000000000000000000) (mkU 4 0 (-2) 0)) (Mul (Const (88810389610389459 # 1000000000000000000000000) (mkU 4 0 (-2) (-2))) (Var 181))) (Mul (Const (10974025974025443 # 100000000000000000000000000) (mkU 4 0 (-2) (-4))) (Pow (Var 181) 2)))]);
         View 183 178 171 Nil;
         View 184 180 172 Nil;
         Frame
          (block [
           Store 184 173 Nil (Sub (Add (Const (24358670995670989 # 1000000000000000000) (mkU 2 2 (-6) (-2))) (Mul (Const (76533982683982561 # 1000000000000000000000) (mkU 2 2 (-6) (-4))) (Var 183))) (Mul (Const (42099567099572201 # 1000000000000000000000000) (mkU 2 2 (-6) (-6))) (Pow (Var 183) 2)))]);
         Let 185 (Const (3466023585520853 # 10000000000000000) none);
         View 186 173 174 Nil;
         View 187 174 175 Nil;
         View 188 177 176 Nil;
         View 189 179 177 Nil;
         View 190 176 178 Nil;
         View 191 175 179 Nil;
         Frame
          (block [
           Let 192 (Div (Mul (Mul (Mul (Abs (Sub (Var 186) (Var 187))) (Const (981 # 100) (mkU 2 0 (-4) 0))) (Pow (Var 191) 3)) (Var 188)) (Mul (Add (Var 187) (Var 190)) (Pow (Var 189) 2)));
           Return]);
         Let 193 (Pow (Add (Const (33 # 40) none) (Mul (Const (387 # 1000) none) (Fn 180 (Cons (Mul (Var 192) (Var 185)) Nil)))) 2);
         Let 194 (Div (Mul (Var 193) (Var 180)) (Var 175));
         Return]);
       View 172 194 181 Nil;
       Return])
      (block [
       View 195 167 182 Nil;
       View 196 168 183 Nil;
       View 197 169 184 Nil;
       View 198 171 185 Nil;
       Frame
        (block [
         Let 199 (Const (5463 # 20) (mkU 0 0 0 2));
         Let 200 (Const (177 # 250) none);
         Let 201 (Div (Add (Var 196) (Var 195)) (Const (2 # 1) none));
         View 202 201 186 Nil;
         Frame
          (block [
           Let 203 (Add (Add (Const (13500069264069257 # 1000000000000000000000) (mkU 4 0 (-2) 0)) (Mul (Const (88810389610389459 # 1000000000000000000000000) (mkU 4 0 (-2) (-2))) (Var 202))) (Mul (Const (10974025974025443 # 100000000000000000000000000) (mkU 4 0 (-2) (-4))) (Pow (Var 202) 2)));
           Return]);
         View 204 203 187 Nil;
         View 205 201 188 Nil;
         Frame
          (block [
           Let 206 (Sub (Add (Const (24358670995670989 # 1000000000000000000) (mkU 2 2 (-6) (-2))) (Mul (Const (76533982683982561 # 1000000000000000000000) (mkU 2 2 (-6) (-4))) (Var 205))) (Mul (Const (42099567099572201 # 1000000000000000000000000) (mkU 2 2 (-6) (-6))) (Pow (Var 205) 2)));
           Return]);
         View 207 206 189 Nil;
         Let 208 (Const (0 # 1) none);
         View 209 195 191 Nil;
         View 210 196 192 Nil;
         View 211 200 193 Nil;
         View 212 204 194 Nil;
         View 213 199 195 Nil;
         View 214 197 196 Nil;
         Frame
          (block [
           Let 215 (Div (Mul (Mul (Mul (Abs (Sub (Var 209) (Var 210))) (Const (981 # 100) (mkU 2 0 (-4) 0))) (Pow (Var 214) 3)) (Var 211)) (Mul (Add (Var 210) (Var 213)) (Pow (Var 212) 2)));
           Return]);
         View 216 215 197 Nil;
         For 217 215 (Cons (Fn 198 Nil) Nil)
          (block [
           If (Fn 206 (Cons (Fn 201 (Cons (Sel 199 (Var 198) (Cons (Var 217) Nil)) (Cons (Cmp Ge (Sel 200 (Var 195) (Cons (Var 217) Nil)) (Var 196)) Nil))) (Cons (Fn 205 (Cons (Fn 203 (Cons (Sel 202 (Var 198) (Cons (Var 217) Nil)) Nil)) (Cons (Cmp Lt (Sel 204 (Var 195) (Cons (Var 217) Nil)) (Var 196)) Nil))) Nil)))
            (block [
             Let 218 (Const (40306002707296223 # 100000000000000000) none);
             Let 219 (Mul (Sel 207 (Var 216) (Cons (Var 217) Nil)) (Var 218));
             If (Cmp Le (Var 219) (Const (70000 # 1) none))
              (block [
               Store 208 209 (Cons (Var 217) Nil) (Mul (Const (383 # 500) none) (Fn 208 (Cons (Var 219) Nil)))])
              (block [
               Store 208 211 (Cons (Var 217) Nil) (Mul (Const (3 # 20) none) (Fn 210 (Cons (Var 219) Nil)))])])
            (block [
             Let 218 (Const (3466023585520853 # 10000000000000000) none);
             Store 208 214 (Cons (Var 217) Nil) (Mul (Const (3 # 5) none) (Fn 213 (Cons (Mul (Sel 212 (Var 216) (Cons (Var 217) Nil)) (Var 218)) Nil)))])]);
         Let 220 (Div (Mul (Var 208) (Var 207)) (Var 197));
         Return]);
       View 172 220 216 Nil;
       Return])]);
   View 221 172 217 Nil;
   View 222 51 218 Nil;
   View 223 44 219 Nil;
   View 224 45 220 Nil;
   View 225 46 221 Nil;
   View 226 26 222 Nil;
   View 227 27 223 Nil;
   View 228 22 224 Nil;
   View 229 23 225 Nil;
   View 230 30 226 Nil;
   Frame
    (block [
     Store 230 227 Nil (Div (Var 222) (Add (Add (Add (Div (Const (1 # 1) none) (Var 226)) (Div (Var 223) (Var 228))) (Div (Var 224) (Var 229))) (Div (Var 225) (Var 227))))]);
   View 231 49 228 Nil;
   View 232 47 229 Nil;
   View 233 48 230 Nil;
   View 234 26 231 (Cons (Sub (Fn 232 Nil) (Const (1 # 1) none)) Nil);
   View 235 221 233 Nil;
   View 236 22 234 Nil;
   View 237 23 235 Nil;
   Frame
    (block [
     Let 238 (Div (Var 231) (Add (Add (Add (Div (Const (1 # 1) none) (Var 234)) (Div (Var 232) (Var 236))) (Div (Var 233) (Var 237))) (Div (Const (1 # 1) none) (Var 235))));
     Return]);
   Store 31 236 Nil (Var 238);
   View 239 1 237 Nil;
   View 240 50 238 Nil;
   View 241 13 239 Nil;
   View 242 15 240 Nil;
   View 243 24 241 Nil;
   View 244 21 242 Nil;
   View 245 20 243 Nil;
   View 246 25 244 Nil;
   Frame
    (block [
     Store 244 246 Nil (Mul (Var 242) (Sel 245 (Var 241) Nil));
     Store 245 247 Nil (Add (Mul (Var 240) (Var 244)) (Var 243));
     Store 246 250 Nil (Mul (Sel 248 (Var 241) Nil) (Sel 249 (Var 239) Nil))]);
   View 247 6 251 Nil;
   View 248 35 252 Nil;
   View 249 34 253 Nil;
   View 250 1 254 Nil;
   View 251 20 255 Nil;
   View 252 32 256 Nil;
   View 253 33 257 Nil;
   View 254 53 258 Nil;
   View 255 37 259 Nil;
   View 256 36 260 Nil;
   View 257 14 261 Nil;
   View 258 18 262 Nil;
   View 259 19 263 Nil;
   View 260 2 264 Nil;
   Frame
    (block [
     Let 261 (Const (0 # 1) (mkU 0 0 (-2) 2));
     For 262 285 (Cons (Fn 266 Nil) Nil)
      (block [
       View 263 247 267 (Cons (Sel 268 (Var 248) (Cons (Var 262) Nil)) Nil);
       View 264 249 269 (Cons (Var 262) Nil);
       Store 260 270 (Cons (Var 262) Nil) (Var 263);
       View 265 263 271 Nil;
       Frame
        (block [
         Let 266 (Add (Sub (Add (Sub (Const (5269252946772499 # 1250000000000) (mkU 4 0 (-4) (-2))) (Mul (Const (7213485820879837 # 2500000000000000) (mkU 4 0 (-4) (-4))) (Var 265))) (Mul (Const (468161292800073 # 6250000000000000) (mkU 4 0 (-4) (-6))) (Pow (Var 265) 2))) (Mul (Const (77807143441700321 # 100000000000000000000) (mkU 4 0 (-4) (-8))) (Pow (Var 265) 3))) (Mul (Const (501708265162663 # 156250000000000000000) (mkU 4 0 (-4) (-10))) (Pow (Var 265) 4)));
         Return]);
       Store 258 272 (Cons (Var 262) Nil) (Var 266);
       View 267 263 273 Nil;
       Frame
        (block [
         Let 268 (Sub (Sub (Add (Const (56987912853229539 # 100000000000000000) (mkU 2 2 (-6) (-2))) (Mul (Const (8939185201272869 # 5000000000000000000) (mkU 2 2 (-6) (-4))) (Var 267))) (Mul (Const (11999643454775959 # 2000000000000000000000) (mkU 2 2 (-6) (-6))) (Pow (Var 267) 2))) (Mul (Const (86964577115093407 # 10000000000000000000000000) (mkU 2 2 (-6) (-8))) (Pow (Var 267) 3)));
         Return]);
       Store 259 274 (Cons (Var 262) Nil) (Var 268);
       Store 252 280 (Cons (Var 262) Nil) (Add (Div (Sel 275 (Var 254) (Cons (Var 262) Nil)) (Add (Div (Sel 276 (Var 255) (Cons (Var 262) Nil)) (Mul (Const (2 # 1) none) (Sel 277 (Var 259) (Cons (Var 262) Nil)))) (Div (Var 256) (Mul (Const (2 # 1) none) (Sel 278 (Var 257) (Cons (Var 264) Nil)))))) (Sel 279 (Var 253) (Cons (Var 262) Nil)));
       Store 261 284 (Cons (Var 262) Nil) (Div (Mul (Sel 281 (Var 252) (Cons (Var 262) Nil)) (Sub (Var 263) (Sel 282 (Var 250) (Cons (Var 264) Nil)))) (Sel 283 (Var 251) (Cons (Var 264) Nil)))]);
     View 269 261 286 Nil;
     Return]);
   View 270 269 287 Nil;
   View 271 59 288 Nil;
   View 272 60 289 Nil;
   View 273 28 290 Nil;
   View 274 32 291 Nil;
   View 275 30 292 Nil;
   View 276 9 293 Nil;
   View 277 10 294 Nil;
   View 278 11 295 Nil;
   View 279 15 296 Nil;
   View 280 21 297 Nil;
   View 281 36 298 Nil;
   View 282 38 299 Nil;
   View 283 49 300 Nil;
   View 284 53 301 Nil;
   View 285 52 302 Nil;
   View 286 43 303 Nil;
   View 287 50 304 Nil;
   View 288 58 305 Nil;
   View 289 61 306 Nil;
   View 290 62 307 Nil;
   View 291 63 308 Nil;
   View 292 67 309 Nil;
   Frame
    (block [
     Let 293 (Const (0 # 1) none);
     Store 293 313 Nil (Div (Mul (Red Maxi 312 (Div (Sel 310 (Var 273) Nil) (Sel 311 (Var 280) Nil))) (Var 292)) (Mul (Var 283) (Var 281)));
     Store 293 316 Nil (Div (Mul (Red Maxi 314 (Div (Var 274) (Mul (Var 284) (Var 282)))) (Var 292)) (Red Maxi 315 (Var 280)));
     Store 293 318 Nil (Div (Mul (Red Maxi 317 (Div (Var 275) (Var 280))) (Var 292)) (Mul (Var 285) (Var 286)));
     Let 294 (Red Maxi 319 (Var 293));
     Let 295 (Mul (Var 287) (Red Maxi 320 (Var 279)));
     Let 296 (Div (Mul (Max (Max (Red Maxi 321 (Var 276)) (Red Maxi 322 (Var 277))) (Red Maxi 323 (Abs (Var 278)))) (Var 292)) (Var 295));
     Let 297 (Div (Var 294) (Const (1 # 2) none));
     Let 298 (Div (Var 296) (Const (1 # 1) none));
     Let 299 (Max (Var 297) (Var 298));
     If (Cmp Gt (Var 299) (Const (1 # 1) none))
      (block [
       If (Const (1 # 1) none)
        (block [
         Store 288 324 Nil (Const (0 # 1) none);
         Store 272 325 Nil (Add (Var 272) (Const (1 # 1) none));
         Let 300 (Mul (Div (Var 292) (Var 299)) (Const (19 # 20) none));
         If (Cmp Gt (Sel 326 (Var 289) Nil) (Var 300))
          (block [
           Store 289 327 Nil (Var 300)])
          Skip;
         If (Cmp Gt (Sel 328 (Var 290) Nil) (Const (21 # 20) none))
          (block [
           Store 290 331 Nil (Fn 330 (Cons (Sel 329 (Var 290) Nil) Nil));
           If (Cmp Lt (Sel 332 (Var 290) Nil) (Const (21 # 20) none))
            (block [
             Store 290 333 Nil (Const (21 # 20) none)])
            Skip])
          Skip])
        (block [
         Raise])])
      Skip;
     View 301 288 334 Nil;
     View 302 289 335 Nil;
     View 303 290 336 Nil;
     Return]);
   View 58 301 337 Nil;
   View 61 302 338 Nil;
   View 62 303 339 Nil;
   If (Cmp Eq (Fn 340 Nil) (Const (1 # 1) none))
    (block [
     Store 64 349 Nil (Div (Add (Add (Mul (Sel 341 (Var 28) Nil) (Sub (Sel 342 (Var 1) Nil) (Sel 343 (Var 1) Nil))) (Mul (Sel 344 (Var 28) Nil) (Sub (Sel 345 (Var 1) Nil) (Sel 346 (Var 1) Nil)))) (Mul (Var 30) (Sub (Sel 347 (Var 5) Nil) (Sel 348 (Var 1) Nil)))) (Var 20));
     Store 64 355 Nil (Add (Sel 350 (Var 64) Nil) (Div (Mul (Sel 351 (Var 31) Nil) (Sub (Sel 352 (Var 5) Nil) (Sel 353 (Var 1) Nil))) (Sel 354 (Var 20) Nil)));
     Store 64 361 Nil (Add (Sel 356 (Var 64) Nil) (Div (Mul (Sel 357 (Var 31) Nil) (Sub (Sel 358 (Var 5) Nil) (Sel 359 (Var 1) Nil))) (Sel 360 (Var 20) Nil)));
     Store 65 366 Nil (Div (Add (Mul (Var 9) (Sub (Mul (Sel 362 (Var 13) Nil) (Sel 363 (Var 1) Nil)) (Var 25))) (Mul (Var 10) (Sub (Mul (Sel 364 (Var 13) Nil) (Sel 365 (Var 1) Nil)) (Var 25)))) (Var 20))])
    (block [
     Store 64 375 Nil (Div (Add (Add (Mul (Sel 367 (Var 28) Nil) (Sub (Sel 368 (Var 1) Nil) (Sel 369 (Var 1) Nil))) (Mul (Sel 370 (Var 28) Nil) (Sub (Sel 371 (Var 1) Nil) (Sel 372 (Var 1) Nil)))) (Mul (Var 30) (Sub (Sel 373 (Var 5) Nil) (Sel 374 (Var 1) Nil)))) (Var 20));
     Store 64 381 Nil (Add (Sel 376 (Var 64) Nil) (Div (Mul (Sel 377 (Var 31) Nil) (Sub (Sel 378 (Var 5) Nil) (Sel 379 (Var 1) Nil))) (Sel 380 (Var 20) Nil)));
     Store 64 387 Nil (Add (Sel 382 (Var 64) Nil) (Div (Mul (Sel 383 (Var 31) Nil) (Sub (Sel 384 (Var 5) Nil) (Sel 385 (Var 1) Nil))) (Sel 386 (Var 20) Nil)));
     Store 65 392 Nil (Div (Add (Mul (Var 9) (Sub (Mul (Sel 388 (Var 13) Nil) (Sel 389 (Var 1) Nil)) (Var 25))) (Mul (Var 10) (Sub (Mul (Sel 390 (Var 13) Nil) (Sel 391 (Var 1) Nil)) (Var 25)))) (Var 20))]);
   For 304 408 (Cons (Fn 393 Nil) Nil)
    (block [
     View 305 34 394 (Cons (Var 304) Nil);
     Store 64 400 (Cons (Var 305) Nil) (Add (Sel 395 (Var 64) (Cons (Var 305) Nil)) (Div (Mul (Sel 396 (Var 32) (Cons (Var 304) Nil)) (Sub (Sel 397 (Var 2) (Cons (Var 304) Nil)) (Sel 398 (Var 1) (Cons (Add (Var 305) (Const (1 # 1) none)) Nil)))) (Sel 399 (Var 20) (Cons (Var 305) Nil))));
     Store 65 407 (Cons (Var 305) Nil) (Add (Sel 401 (Var 65) (Cons (Var 305) Nil)) (Div (Mul (Sel 402 (Var 11) (Cons (Var 304) Nil)) (Sub (Mul (Sel 403 (Var 18) (Cons (Var 304) Nil)) (Sel 404 (Var 2) (Cons (Var 304) Nil))) (Sel 405 (Var 25) (Cons (Var 305) Nil)))) (Sel 406 (Var 20) (Cons (Var 305) Nil))))]);
   Store 66 409 Nil (Add (Var 64) (Var 65));
   View 306 66 410 Nil;
   View 307 54 411 Nil;
   View 308 58 412 Nil;
   View 309 61 413 Nil;
   View 310 62 414 Nil;
   View 311 221 415 Nil;
   Return]).
(** multisim/precomp_funs.py 2593 *)
Definition f_hexnum_diff : func := mkF "hexnum_diff" 2593
  [("T_ext", 1); ("T_port", 2); ("T_amb", 3); ("ports_all", 4); ("dm_io", 5); ("dm_top", 6); ("dm_bot", 7); ("dm_port", 8); ("res_dm", 9); ("cp_T", 10); ("lam_fld", 11); ("rho_T", 12); ("ny_T", 13); ("lam_mean", 14); ("cp_port", 15); ("lam_port_fld", 16); ("mcp", 17); ("rhocp", 18); ("cp_wll", 19); ("lam_wll", 20); ("ui", 21); ("alpha_i", 22); ("UA_dim1", 23); ("UA_dim2", 24); ("UA_dim1_wll", 25); ("UA_port", 26); ("UA_port_wll", 27); ("port_own_idx", 28); ("port_link_idx", 29); ("grid_spacing", 30); ("port_gsp", 31); ("port_subs_gsp", 32); ("d_h", 33); ("s_plate", 34); ("cell_dist", 35); ("dist_min", 36); ("A_channel", 37); ("V_cell_fld", 38); ("A_plate_eff", 39); ("A_p_fld_mean", 40); ("channel_divisor", 41); ("corr_Re", 42); ("process_flows", 43); ("step_stable", 44); ("part_id", 45); ("stability_breaches", 46); ("vN_max_step", 47); ("max_factor", 48); ("stepnum", 49); ("dT_cond", 50); ("dT_adv", 51); ("dT_total", 52); ("timestep", 53)]
  [223]
  [(1, (mkU 0 0 0 2)); (2, (mkU 0 0 0 2)); (3, (mkU 0 0 0 2)); (4, (mkU 0 0 0 2)); (5, (mkU 0 2 (-2) 0)); (6, (mkU 0 2 (-2) 0)); (7, (mkU 0 2 (-2) 0)); (8, (mkU 0 2 (-2) 0)); (9, (mkU 0 2 (-2) 0)); (10, (mkU 4 0 (-4) (-2))); (11, (mkU 2 2 (-6) (-2))); (12, (mkU (-6) 2 0 0)); (13, (mkU 4 0 (-2) 0)); (14, (mkU 2 2 (-6) (-2))); (15, (mkU 4 0 (-4) (-2))); (16, (mkU 2 2 (-6) (-2))); (17, (mkU 4 2 (-4) (-2))); (18, (mkU (-2) 2 (-4) (-2))); (19, (mkU 4 0 (-4) (-2))); (20, (mkU 2 2 (-6) (-2))); (21, (mkU 4 0 (-4) 0)); (22, (mkU 0 2 (-6) (-2))); (23, (mkU 4 2 (-6) (-2))); (24, (mkU 4 2 (-6) (-2))); (25, (mkU 4 2 (-6) (-2))); (26, (mkU 4 2 (-6) (-2))); (27, (mkU 4 2 (-6) (-2))); (30, (mkU 2 0 0 0)); (31, (mkU 2 0 0 0)); (32, (mkU 2 0 0 0)); (33, (mkU 2 0 0 0)); (34, (mkU 2 0 0 0)); (35, (mkU 2 0 0 0)); (36, (mkU 2 0 0 0)); (37, (mkU 4 0 0 0)); (38, (mkU 6 0 0 0)); (39, (mkU 4 0 0 0)); (40, (mkU 4 0 0 0)); (47, (mkU 0 0 2 0)); (50, (mkU 0 0 (-2) 2)); (51, (mkU 0 0 (-2) 2)); (52, (mkU 0 0 (-2) 2)); (53, (mkU 0 0 2 0)); (54, (mkU 0 0 0 2)); (55, (mkU 0 0 0 2)); (56, (mkU 0 2 (-2) 0)); (57, (mkU 0 2 (-2) 0)); (59, (mkU 0 2 (-2) 0)); (60, (mkU 0 2 (-2) 0)); (61, (mkU 0 2 (-2) 0)); (62, (mkU 0 2 (-2) 0)); (64, (mkU 0 2 (-2) 0)); (67, (mkU 0 2 (-2) 0)); (68, (mkU 0 0 0 2)); (69, (mkU 4 0 (-4) (-2))); (70, (mkU 2 2 (-6) (-2))); (71, (mkU (-6) 2 0 0)); (72, (mkU 4 0 (-2) 0)); (73, (mkU 0 0 0 2)); (74, (mkU 4 0 (-4) (-2))); (75, (mkU 0 0 0 2)); (76, (mkU 2 2 (-6) (-2))); (77, (mkU 0 0 0 2)); (78, (mkU (-6) 2 0 0)); (79, (mkU 0 0 0 2)); (80, (mkU 4 0 (-2) 0)); (81, (mkU 2 2 (-6) (-2))); (82, (mkU 2 2 (-6) (-2))); (83, (mkU 4 0 0 0)); (84, (mkU 2 0 0 0)); (85, (mkU 2 2 (-6) (-2))); (86, (mkU 4 2 (-6) (-2))); (87, (mkU 4 2 (-6) (-2))); (88, (mkU 4 2 (-6) (-2))); (89, (mkU 0 2 (-2) 0)); (90, (mkU 0 0 0 2)); (91, (mkU 0 0 0 2)); (92, (mkU (-6) 2 0 0)); (93, (mkU 4 0 (-2) 0)); (94, (mkU 2 2 (-6) (-2))); (95, (mkU 4 0 0 0)); (96, (mkU 2 0 0 0)); (97, (mkU 2 0 0 0)); (99, (mkU 0 2 (-6) (-2))); (103, (mkU 2 0 (-2) 0)); (104, (mkU 2 0 0 0)); (105, (mkU 4 0 (-2) 0)); (107, (mkU 0 0 0 2)); (110, (mkU 0 0 0 2)); (118, (mkU 0 2 (-2) 0)); (119, (mkU 0 0 0 2)); (120, (mkU 0 0 0 2)); (121, (mkU (-6) 2 0 0)); (122, (mkU 4 0 (-2) 0)); (123, (mkU 2 2 (-6) (-2))); (124, (mkU 4 0 0 0)); (125, (mkU 2 0 0 0)); (126, (mkU 2 0 0 0)); (128, (mkU 0 2 (-6) (-2))); (132, (mkU 2 0 (-2) 0)); (133, (mkU 2 0 0 0)); (134, (mkU 4 0 (-2) 0)); (136, (mkU 0 0 0 2)); (139, (mkU 0 0 0 2)); (147, (mkU 4 0 0 0)); (148, (mkU 2 0 0 0)); (149, (mkU 0 2 (-6) (-2))); (150, (mkU 2 2 (-6) (-2))); (151, (mkU 4 2 (-6) (-2))); (152, (mkU 0 0 0 2)); (153, (mkU 6 0 0 0)); (154, (mkU 4 0 (-4) (-2))); (155, (mkU (-6) 2 0 0)); (156, (mkU (-2) 2 (-4) (-2))); (157, (mkU 4 2 (-4) (-2))); (158, (mkU 4 0 (-4) 0)); (159, (mkU 0 0 0 2)); (160, (mkU 4 0 (-4) (-2))); (161, (mkU 4 0 (-4) 0)); (162, (mkU 0 0 0 2)); (165, (mkU 0 0 0 2)); (166, (mkU 4 2 (-4) (-2))); (167, (mkU 4 2 (-6) (-2))); (168, (mkU 4 2 (-6) (-2))); (169, (mkU 4 0 0 0)); (170, (mkU 2 0 0 0)); (171, (mkU 2 0 0 0)); (172, (mkU 2 2 (-6) (-2))); (173, (mkU 4 0 (-4) (-2))); (174, (mkU 2 2 (-6) (-2))); (175, (mkU 0 0 0 2)); (176, (mkU 0 0 (-2) 2)); (178, (mkU 0 0 0 2)); (180, (mkU 0 0 0 2)); (181, (mkU 4 0 (-4) (-2))); (182, (mkU 0 0 0 2)); (183, (mkU 2 2 (-6) (-2))); (184, (mkU 0 0 (-2) 2)); (185, (mkU 0 0 (-2) 2)); (188, (mkU 4 2 (-6) (-2))); (189, (mkU 4 2 (-6) (-2))); (190, (mkU 4 2 (-6) (-2))); (191, (mkU 0 2 (-2) 0)); (192, (mkU (-6) 2 0 0)); (193, (mkU (-2) 2 (-4) (-2))); (194, (mkU 2 0 0 0)); (195, (mkU 2 0 0 0)); (196, (mkU 4 0 0 0)); (197, (mkU 4 0 0 0)); (198, (mkU 4 0 0 0)); (199, (mkU 6 0 0 0)); (201, (mkU 0 0 2 0)); (204, (mkU 0 0 2 0)); (206, (mkU (-2) 2 (-4) (-2))); (208, (mkU 0 2 0 0)); (213, (mkU 0 0 2 0)); (215, (mkU 0 0 2 0)); (218, (mkU 0 0 2 0)); (220, (mkU 4 2 (-6) (-2))); (223, (mkU 0 0 (-2) 2))]
  (block [
   View 54 1 1 Nil;
   View 55 1 2 Nil;
   View 56 5 3 Nil;
   View 57 5 4 Nil;
   View 58 43 5 Nil;
   View 59 5 6 Nil;
   View 60 6 7 Nil;
   View 61 7 8 Nil;
   View 62 8 9 Nil;
   View 63 49 10 Nil;
   View 64 9 11 Nil;
   Frame
    (block [
     If (Sel 12 (Var 58) Nil)
      (block [
       For 65 27 (Cons (Fn 13 Nil) Nil)
        (block [
         If (Cmp Ge (Sel 14 (Var 59) (Cons (Var 65) Nil)) (Const (0 # 1) (mkU 0 2 (-2) 0)))
          (block [
           Store 60 16 (Cons (Var 65) Nil) (Sel 15 (Var 59) (Cons (Var 65) Nil));
           Store 61 17 (Cons (Var 65) Nil) (Const (0 # 1) (mkU 0 2 (-2) 0));
           Store 62 19 (Cons (Mul (Var 65) (Const (2 # 1) none)) Nil) (Sel 18 (Var 59) (Cons (Var 65) Nil));
           Store 62 20 (Cons (Add (Mul (Var 65) (Const (2 # 1) none)) (Const (1 # 1) none)) Nil) (Const (0 # 1) (mkU 0 2 (-2) 0))])
          (block [
           Store 61 22 (Cons (Var 65) Nil) (Neg (Sel 21 (Var 59) (Cons (Var 65) Nil)));
           Store 60 23 (Cons (Var 65) Nil) (Const (0 # 1) (mkU 0 2 (-2) 0));
           Store 62 24 (Cons (Mul (Var 65) (Const (2 # 1) none)) Nil) (Const (0 # 1) (mkU 0 2 (-2) 0));
           Store 62 26 (Cons (Add (Mul (Var 65) (Const (2 # 1) none)) (Const (1 # 1) none)) Nil) (Neg (Sel 25 (Var 59) (Cons (Var 65) Nil)))])]);
       Store 64 28 (Cons (Sel 29 (Var 63) Nil) Nil) (Var 59)])
      Skip;
     Let 66 (Const (0 # 1) none);
     Return]);
   Store 43 30 Nil (Var 66);
   Let 67 (Abs (Div (Var 5) (Var 41)));
   View 68 1 31 Nil;
   View 69 10 32 Nil;
   View 70 11 33 Nil;
   View 71 12 34 Nil;
   View 72 13 35 Nil;
   Frame
    (block [
     View 73 68 36 Nil;
     View 74 69 37 Nil;
     Frame
      (block [
       Store 74 38 Nil (Add (Sub (Add (Sub (Const (5269252946772499 # 1250000000000) (mkU 4 0 (-4) (-2))) (Mul (Const (7213485820879837 # 2500000000000000) (mkU 4 0 (-4) (-4))) (Var 73))) (Mul (Const (468161292800073 # 6250000000000000) (mkU 4 0 (-4) (-6))) (Pow (Var 73) 2))) (Mul (Const (77807143441700321 # 100000000000000000000) (mkU 4 0 (-4) (-8))) (Pow (Var 73) 3))) (Mul (Const (501708265162663 # 156250000000000000000) (mkU 4 0 (-4) (-10))) (Pow (Var 73) 4)))]);
     View 75 68 39 Nil;
     View 76 70 40 Nil;
     Frame
      (block [
       Store 76 41 Nil (Sub (Sub (Add (Const (56987912853229539 # 100000000000000000) (mkU 2 2 (-6) (-2))) (Mul (Const (8939185201272869 # 5000000000000000000) (mkU 2 2 (-6) (-4))) (Var 75))) (Mul (Const (11999643454775959 # 2000000000000000000000) (mkU 2 2 (-6) (-6))) (Pow (Var 75) 2))) (Mul (Const (86964577115093407 # 10000000000000000000000000) (mkU 2 2 (-6) (-8))) (Pow (Var 75) 3)))]);
     View 77 68 42 Nil;
     View 78 71 43 Nil;
     Frame
      (block [
       Store 78 44 Nil (Sub (Add (Sub (Add (Const (99988785713136213 # 100000000000000) (mkU (-6) 2 0 0)) (Mul (Const (24802227495264801 # 500000000000000000) (mkU (-6) 2 0 (-2))) (Var 77))) (Mul (Const (74722666453460717 # 10000000000000000000) (mkU (-6) 2 0 (-4))) (Pow (Var 77) 2))) (Mul (Const (10273621109538621 # 250000000000000000000) (mkU (-6) 2 0 (-6))) (Pow (Var 77) 3))) (Mul (Const (6457894773161807 # 50000000000000000000000) (mkU (-6) 2 0 (-8))) (Pow (Var 77) 4)))]);
     View 79 68 45 Nil;
     View 80 72 46 Nil;
     Frame
      (block [
       Store 80 47 Nil (Add (Sub (Add (Sub (Const (3552894676098831 # 2000000000000000000000) (mkU 4 0 (-2) 0)) (Mul (Const (13910068945316351 # 250000000000000000000000) (mkU 4 0 (-2) (-2))) (Var 79))) (Mul (Const (5121536443747213 # 5000000000000000000000000) (mkU 4 0 (-2) (-4))) (Pow (Var 79) 2))) (Mul (Const (19590892027396233 # 2000000000000000000000000000) (mkU 4 0 (-2) (-6))) (Pow (Var 79) 3))) (Mul (Const (9115117186265681 # 250000000000000000000000000000) (mkU 4 0 (-2) (-8))) (Pow (Var 79) 4)))])]);
   View 81 11 48 Nil;
   View 82 14 49 Nil;
   Frame
    (block [
     Store 82 54 Nil (Div (Mul (Mul (Const (2 # 1) none) (Sel 50 (Var 81) Nil)) (Sel 51 (Var 81) Nil)) (Add (Sel 52 (Var 81) Nil) (Sel 53 (Var 81) Nil)))]);
   View 83 37 55 Nil;
   View 84 30 56 Nil;
   View 85 14 57 Nil;
   View 86 23 58 Nil;
   Frame
    (block [
     Store 86 59 Nil (Mul (Div (Var 83) (Var 84)) (Var 85))]);
   View 87 25 60 Nil;
   View 88 23 61 Nil;
   Frame
    (block [
     Store 88 62 Nil (Var 87)]);
   Let 89 (Div (Var 56) (Sel 63 (Var 41) Nil));
   View 90 54 64 Nil;
   View 91 54 65 Nil;
   View 92 12 66 Nil;
   View 93 13 67 Nil;
   View 94 11 68 Nil;
   View 95 37 69 Nil;
   View 96 33 70 Nil;
   View 97 35 71 Nil;
   View 98 42 72 Nil;
   View 99 22 73 Nil;
   Frame
    (block [
     Let 100 (Fn 74 Nil);
     Let 101 (Const (0 # 1) none);
     Let 102 (Const (0 # 1) none);
     Let 103 (Div (Var 89) (Mul (Var 92) (Var 95)));
     View 104 96 75 Nil;
     View 105 93 76 Nil;
     View 106 101 77 Nil;
     Frame
      (block [
       Store 106 78 Nil (Div (Mul (Abs (Var 103)) (Var 104)) (Var 105))]);
     View 107 90 79 Nil;
     Frame
      (block [
       Let 108 (Sub (Add (Sub (Const (62890054099689529 # 5000000000000000) none) (Mul (Const (8781170142941877 # 25000000000000000) (mkU 0 0 0 (-2))) (Var 107))) (Mul (Const (8645096088941217 # 2000000000000000000) (mkU 0 0 0 (-4))) (Pow (Var 107) 2))) (Mul (Const (9587096961594449 # 500000000000000000000) (mkU 0 0 0 (-6))) (Pow (Var 107) 3)));
       Return]);
     View 109 108 80 Nil;
     View 110 91 81 Nil;
     Frame
      (block [
       Let 111 (Sub (Add (Sub (Const (62890054099689529 # 5000000000000000) none) (Mul (Const (8781170142941877 # 25000000000000000) (mkU 0 0 0 (-2))) (Var 110))) (Mul (Const (8645096088941217 # 2000000000000000000) (mkU 0 0 0 (-4))) (Pow (Var 110) 2))) (Mul (Const (9587096961594449 # 500000000000000000000) (mkU 0 0 0 (-6))) (Pow (Var 110) 3)));
       Return]);
     View 112 111 82 Nil;
     Store 101 83 Nil (Add (Var 101) (Var 98));
     Let 113 (Fn 84 (Cons (Div (Var 109) (Var 112)) Nil));
     Let 114 (Mul (Var 101) (Var 109));
     Let 115 (Cmp Gt (Var 101) (Const (2300 # 1) none));
     Let 116 (Div (Mul (Sel 85 (Var 114) (Cons (Fn 86 (Cons (Var 115) Nil)) Nil)) (Var 96)) (Sel 87 (Var 97) (Cons (Fn 88 (Cons (Var 115) Nil)) Nil)));
     Store 102 95 (Cons (Fn 96 (Cons (Var 115) Nil)) Nil) (Fn 94 (Cons (Add (Add (Const (49371 # 1000) none) (Pow (Sub (Mul (Const (323 # 200) none) (Fn 89 (Cons (Var 116) Nil))) (Const (7 # 10) none)) 3)) (Pow (Mul (Fn 92 (Cons (Div (Const (2 # 1) none) (Add (Const (1 # 1) none) (Mul (Const (22 # 1) none) (Sel 90 (Var 109) (Cons (Fn 91 (Cons (Var 115) Nil)) Nil))))) Nil)) (Fn 93 (Cons (Var 116) Nil))) 3)) Nil));
     Let 117 (Pow (Sub (Mul (Const (9 # 5) none) (Fn 98 (Cons (Sel 97 (Var 101) (Cons (Var 115) Nil)) Nil))) (Const (3 # 2) none)) (-2));
     Store 102 105 (Cons (Var 115) Nil) (Mul (Div (Mul (Div (Var 117) (Const (8 # 1) none)) (Sel 99 (Var 114) (Cons (Var 115) Nil))) (Add (Const (1 # 1) none) (Mul (Mul (Const (127 # 10) none) (Sub (Fn 101 (Cons (Sel 100 (Var 109) (Cons (Var 115) Nil)) Nil)) (Const (1 # 1) none))) (Fn 102 (Cons (Div (Var 117) (Const (8 # 1) none)) Nil))))) (Add (Const (1 # 1) none) (Fn 104 (Cons (Div (Var 96) (Sel 103 (Var 97) (Cons (Var 115) Nil))) Nil))));
     Store 99 106 Nil (Div (Mul (Mul (Var 102) (Var 113)) (Var 94)) (Var 96))]);
   Let 118 (Div (Var 57) (Sel 107 (Var 41) Nil));
   View 119 55 108 Nil;
   View 120 55 109 Nil;
   View 121 12 110 Nil;
   View 122 13 111 Nil;
   View 123 11 112 Nil;
   View 124 37 113 Nil;
   View 125 33 114 Nil;
   View 126 35 115 Nil;
   View 127 42 116 Nil;
   View 128 22 117 Nil;
   Frame
    (block [
     Let 129 (Fn 118 Nil);
     Let 130 (Const (0 # 1) none);
     Let 131 (Const (0 # 1) none);
     Let 132 (Div (Var 118) (Mul (Var 121) (Var 124)));
     View 133 125 119 Nil;
     View 134 122 120 Nil;
     View 135 130 121 Nil;
     Frame
      (block [
       Store 135 122 Nil (Div (Mul (Abs (Var 132)) (Var 133)) (Var 134))]);
     View 136 119 123 Nil;
     Frame
      (block [
       Let 137 (Sub (Add (Sub (Const (62890054099689529 # 5000000000000000) none) (Mul (Const (8781170142941877 # 25000000000000000) (mkU 0 0 0 (-2))) (Var 136))) (Mul (Const (8645096088941217 # 2000000000000000000) (mkU 0 0 0 (-4))) (Pow (Var 136) 2))) (Mul (Const (9587096961594449 # 500000000000000000000) (mkU 0 0 0 (-6))) (Pow (Var 136) 3)));
       Return]);
     View 138 137 124 Nil;
     View 139 120 125 Nil;
     Frame
      (block [
       Let 140 (Sub (Add (Sub (Const (62890054099689529 # 5000000000000000) none) (Mul (Const (8781170142941877 # 25000000000000000) (mkU 0 0 0 (-2))) (Var 139))) (Mul (Const (8645096088941217 # 2000000000000000000) (mkU 0 0 0 (-4))) (Pow (Var 139) 2))) (Mul (Const (9587096961594449 # 500000000000000000000) (mkU 0 0 0 (-6))) (Pow (Var 139) 3)));
       Return]);
     View 141 140 126 Nil;
     Store 130 127 Nil (Add (Var 130) (Var 127));
     Let 142 (Fn 128 (Cons (Div (Var 138) (Var 141)) Nil));
     Let 143 (Mul (Var 130) (Var 138));
     Let 144 (Cmp Gt (Var 130) (Const (2300 # 1) none));
     Let 145 (Div (Mul (Sel 129 (Var 143) (Cons (Fn 130 (Cons (Var 144) Nil)) Nil)) (Var 125)) (Sel 131 (Var 126) (Cons (Fn 132 (Cons (Var 144) Nil)) Nil)));
     Store 131 139 (Cons (Fn 140 (Cons (Var 144) Nil)) Nil) (Fn 138 (Cons (Add (Add (Const (49371 # 1000) none) (Pow (Sub (Mul (Const (323 # 200) none) (Fn 133 (Cons (Var 145) Nil))) (Const (7 # 10) none)) 3)) (Pow (Mul (Fn 136 (Cons (Div (Const (2 # 1) none) (Add (Const (1 # 1) none) (Mul (Const (22 # 1) none) (Sel 134 (Var 138) (Cons (Fn 135 (Cons (Var 144) Nil)) Nil))))) Nil)) (Fn 137 (Cons (Var 145) Nil))) 3)) Nil));
     Let 146 (Pow (Sub (Mul (Const (9 # 5) none) (Fn 142 (Cons (Sel 141 (Var 130) (Cons (Var 144) Nil)) Nil))) (Const (3 # 2) none)) (-2));
     Store 131 149 (Cons (Var 144) Nil) (Mul (Div (Mul (Div (Var 146) (Const (8 # 1) none)) (Sel 143 (Var 143) (Cons (Var 144) Nil))) (Add (Const (1 # 1) none) (Mul (Mul (Const (127 # 10) none) (Sub (Fn 145 (Cons (Sel 144 (Var 138) (Cons (Var 144) Nil)) Nil)) (Const (1 # 1) none))) (Fn 146 (Cons (Div (Var 146) (Const (8 # 1) none)) Nil))))) (Add (Const (1 # 1) none) (Fn 148 (Cons (Div (Var 125) (Sel 147 (Var 126) (Cons (Var 144) Nil))) Nil))));
     Store 128 150 Nil (Div (Mul (Mul (Var 131) (Var 142)) (Var 123)) (Var 125))]);
   View 147 39 151 Nil;
   Let 148 (Div (Var 34) (Const (2 # 1) none));
   View 149 22 152 Nil;
   View 150 20 153 Nil;
   Frame
    (block [
     Let 151 (Div (Var 147) (Add (Div (Const (1 # 1) none) (Var 149)) (Div (Var 148) (Var 150))));
     Return]);
   Store 24 154 Nil (Var 151);
   View 152 1 155 Nil;
   View 153 38 156 Nil;
   View 154 10 157 Nil;
   View 155 12 158 Nil;
   View 156 18 159 Nil;
   View 157 17 160 Nil;
   View 158 21 161 Nil;
   Frame
    (block [
     Store 156 163 Nil (Mul (Var 155) (Sel 162 (Var 154) Nil));
     Store 157 164 Nil (Mul (Var 153) (Var 156));
     Store 158 167 Nil (Mul (Sel 165 (Var 154) Nil) (Sel 166 (Var 152) Nil))]);
   View 159 1 168 Nil;
   View 160 19 169 Nil;
   View 161 21 170 Nil;
   Frame
    (block [
     Store 161 171 Nil (Mul (Var 160) (Var 159))]);
   View 162 4 172 Nil;
   View 163 29 173 Nil;
   View 164 28 174 Nil;
   View 165 1 175 Nil;
   View 166 17 176 Nil;
   View 167 26 177 Nil;
   View 168 27 178 Nil;
   View 169 40 179 Nil;
   View 170 31 180 Nil;
   View 171 30 181 Nil;
   View 172 11 182 Nil;
   View 173 15 183 Nil;
   View 174 16 184 Nil;
   View 175 2 185 Nil;
   Frame
    (block [
     Let 176 (Const (0 # 1) (mkU 0 0 (-2) 2));
     For 177 206 (Cons (Fn 187 Nil) Nil)
      (block [
       View 178 162 188 (Cons (Sel 189 (Var 163) (Cons (Var 177) Nil)) Nil);
       View 179 164 190 (Cons (Var 177) Nil);
       Store 175 191 (Cons (Var 177) Nil) (Var 178);
       View 180 178 192 Nil;
       Frame
        (block [
         Let 181 (Add (Sub (Add (Sub (Const (5269252946772499 # 1250000000000) (mkU 4 0 (-4) (-2))) (Mul (Const (7213485820879837 # 2500000000000000) (mkU 4 0 (-4) (-4))) (Var 180))) (Mul (Const (468161292800073 # 6250000000000000) (mkU 4 0 (-4) (-6))) (Pow (Var 180) 2))) (Mul (Const (77807143441700321 # 100000000000000000000) (mkU 4 0 (-4) (-8))) (Pow (Var 180) 3))) (Mul (Const (501708265162663 # 156250000000000000000) (mkU 4 0 (-4) (-10))) (Pow (Var 180) 4)));
         Return]);
       Store 173 193 (Cons (Var 177) Nil) (Var 181);
       View 182 178 194 Nil;
       Frame
        (block [
         Let 183 (Sub (Sub (Add (Const (56987912853229539 # 100000000000000000) (mkU 2 2 (-6) (-2))) (Mul (Const (8939185201272869 # 5000000000000000000) (mkU 2 2 (-6) (-4))) (Var 182))) (Mul (Const (11999643454775959 # 2000000000000000000000) (mkU 2 2 (-6) (-6))) (Pow (Var 182) 2))) (Mul (Const (86964577115093407 # 10000000000000000000000000) (mkU 2 2 (-6) (-8))) (Pow (Var 182) 3)));
         Return]);
       Store 174 195 (Cons (Var 177) Nil) (Var 183);
       Store 167 201 (Cons (Var 177) Nil) (Add (Div (Sel 196 (Var 169) (Cons (Var 177) Nil)) (Add (Div (Sel 197 (Var 170) (Cons (Var 177) Nil)) (Mul (Const (2 # 1) none) (Sel 198 (Var 174) (Cons (Var 177) Nil)))) (Div (Var 171) (Mul (Const (2 # 1) none) (Sel 199 (Var 172) (Cons (Var 179) Nil)))))) (Sel 200 (Var 168) (Cons (Var 177) Nil)));
       Store 176 205 (Cons (Var 177) Nil) (Div (Mul (Sel 202 (Var 167) (Cons (Var 177) Nil)) (Sub (Var 178) (Sel 203 (Var 165) (Cons (Var 179) Nil)))) (Sel 204 (Var 166) (Cons (Var 179) Nil)))]);
     View 184 176 207 Nil;
     Return]);
   View 185 184 208 Nil;
   View 186 45 209 Nil;
   View 187 46 210 Nil;
   View 188 23 211 Nil;
   View 189 24 212 Nil;
   View 190 26 213 Nil;
   View 191 67 214 Nil;
   View 192 12 215 Nil;
   View 193 18 216 Nil;
   View 194 30 217 Nil;
   View 195 32 218 Nil;
   View 196 37 219 Nil;
   View 197 39 220 Nil;
   View 198 40 221 Nil;
   View 199 38 222 Nil;
   View 200 44 223 Nil;
   View 201 47 224 Nil;
   View 202 48 225 Nil;
   View 203 49 226 Nil;
   View 204 53 227 Nil;
   Frame
    (block [
     Let 205 (Const (0 # 1) none);
     Let 206 (Red Maxi 228 (Var 193));
     Store 205 230 Nil (Div (Mul (Div (Red Maxi 229 (Var 188)) (Var 206)) (Var 204)) (Mul (Var 196) (Var 194)));
     Store 205 232 Nil (Div (Mul (Div (Red Maxi 231 (Var 189)) (Var 206)) (Var 204)) (Mul (Var 197) (Var 194)));
     Store 205 234 Nil (Mul (Div (Red Maxi 233 (Div (Var 190) (Mul (Var 198) (Var 195)))) (Var 206)) (Var 204));
     Let 207 (Red Maxi 235 (Var 205));
     Let 208 (Mul (Var 199) (Red Maxi 236 (Var 192)));
     Let 209 (Div (Mul (Red Maxi 237 (Abs (Var 191))) (Var 204)) (Var 208));
     Let 210 (Div (Var 207) (Const (1 # 2) none));
     Let 211 (Div (Var 209) (Const (1 # 1) none));
     Let 212 (Max (Var 210) (Var 211));
     If (Cmp Gt (Var 212) (Const (1 # 1) none))
      (block [
       If (Const (1 # 1) none)
        (block [
         Store 200 238 Nil (Const (0 # 1) none);
         Store 187 239 Nil (Add (Var 187) (Const (1 # 1) none));
         Let 213 (Mul (Div (Var 204) (Var 212)) (Const (19 # 20) none));
         If (Cmp Gt (Sel 240 (Var 201) Nil) (Var 213))
          (block [
           Store 201 241 Nil (Var 213)])
          Skip;
         If (Cmp Gt (Sel 242 (Var 202) Nil) (Const (21 # 20) none))
          (block [
           Store 202 245 Nil (Fn 244 (Cons (Sel 243 (Var 202) Nil) Nil));
           If (Cmp Lt (Sel 246 (Var 202) Nil) (Const (21 # 20) none))
            (block [
             Store 202 247 Nil (Const (21 # 20) none)])
            Skip])
          Skip])
        (block [
         Raise])])
      Skip;
     View 214 200 248 Nil;
     View 215 201 249 Nil;
     View 216 202 250 Nil;
     Return]);
   View 217 214 251 Nil;
   View 218 215 252 Nil;
   View 219 216 253 Nil;
   Let 220 (Const (0 # 1) (mkU 4 2 (-6) (-2)));
   Store 50 267 Nil (Div (Add (Add (Add (Add (Mul (Sel 254 (Var 23) Nil) (Sub (Sel 255 (Var 1) Nil) (Sel 256 (Var 1) Nil))) (Mul (Sel 257 (Var 23) Nil) (Sub (Sel 258 (Var 1) Nil) (Sel 259 (Var 1) Nil)))) (Mul (Sel 260 (Var 24) Nil) (Sub (Sel 261 (Var 1) Nil) (Sel 262 (Var 1) Nil)))) (Mul (Sel 263 (Var 24) Nil) (Sub (Sel 264 (Var 1) Nil) (Sel 265 (Var 1) Nil)))) (Mul (Var 220) (Sub (Var 3) (Sel 266 (Var 1) Nil)))) (Var 17));
   Store 51 275 Nil (Div (Add (Mul (Var 6) (Sub (Mul (Sel 268 (Var 10) Nil) (Sel 269 (Var 1) Nil)) (Sel 270 (Var 21) Nil))) (Mul (Var 7) (Sub (Mul (Sel 271 (Var 10) Nil) (Sel 272 (Var 1) Nil)) (Sel 273 (Var 21) Nil)))) (Sel 274 (Var 17) Nil));
   For 221 288 (Cons (Fn 276 Nil) Nil)
    (block [
     View 222 28 277 (Cons (Var 221) Nil);
     Store 50 280 (Cons (Var 222) Nil) (Add (Sel 278 (Var 50) (Cons (Var 222) Nil)) (Sel 279 (Var 185) (Cons (Var 221) Nil)));
     Store 51 287 (Cons (Var 222) Nil) (Add (Sel 281 (Var 51) (Cons (Var 222) Nil)) (Div (Mul (Sel 282 (Var 8) (Cons (Var 221) Nil)) (Sub (Mul (Sel 283 (Var 15) (Cons (Var 221) Nil)) (Sel 284 (Var 2) (Cons (Var 221) Nil))) (Sel 285 (Var 21) (Cons (Var 222) Nil)))) (Sel 286 (Var 17) (Cons (Var 222) Nil))))]);
   Store 51 290 Nil (Div (Sel 289 (Var 51) Nil) (Var 41));
   Store 52 291 Nil (Add (Var 50) (Var 51));
   View 223 52 292 Nil;
   Return]).
(** multisim/precomp_funs.py 2997 *)
Definition f_hexnum_diff_impl : func := mkF "hexnum_diff_impl" 2997
  [("T_ext", 1); ("T_port", 2); ("T_amb", 3); ("ports_all", 4); ("dm_io", 5); ("dm_top", 6); ("dm_bot", 7); ("dm_port", 8); ("res_dm", 9); ("cp_T", 10); ("lam_fld", 11); ("rho_T", 12); ("ny_T", 13); ("lam_mean", 14); ("cp_port", 15); ("lam_port_fld", 16); ("mcp", 17); ("rhocp", 18); ("cp_wll", 19); ("lam_wll", 20); ("ui", 21); ("alpha_i", 22); ("UA_dim1", 23); ("UA_dim2", 24); ("UA_dim1_wll", 25); ("UA_port", 26); ("UA_port_wll", 27); ("port_own_idx", 28); ("port_link_idx", 29); ("grid_spacing", 30); ("port_gsp", 31); ("d_h", 32); ("s_plate", 33); ("cell_dist", 34); ("dist_min", 35); ("A_channel", 36); ("V_cell_fld", 37); ("A_plate_eff", 38); ("A_p_fld_mean", 39); ("channel_divisor", 40); ("corr_Re", 41); ("process_flows", 42); ("stepnum", 43); ("dT_cond", 44); ("dT_adv", 45); ("dT_total", 46)]
  [181]
  [(1, (mkU 0 0 0 2)); (2, (mkU 0 0 0 2)); (3, (mkU 0 0 0 2)); (4, (mkU 0 0 0 2)); (5, (mkU 0 2 (-2) 0)); (6, (mkU 0 2 (-2) 0)); (7, (mkU 0 2 (-2) 0)); (8, (mkU 0 2 (-2) 0)); (9, (mkU 0 2 (-2) 0)); (10, (mkU 4 0 (-4) (-2))); (11, (mkU 2 2 (-6) (-2))); (12, (mkU (-6) 2 0 0)); (13, (mkU 4 0 (-2) 0)); (14, (mkU 2 2 (-6) (-2))); (15, (mkU 4 0 (-4) (-2))); (16, (mkU 2 2 (-6) (-2))); (17, (mkU 4 2 (-4) (-2))); (18, (mkU (-2) 2 (-4) (-2))); (19, (mkU 4 0 (-4) (-2))); (20, (mkU 2 2 (-6) (-2))); (21, (mkU 4 0 (-4) 0)); (22, (mkU 0 2 (-6) (-2))); (23, (mkU 4 2 (-6) (-2))); (24, (mkU 4 2 (-6) (-2))); (25, (mkU 4 2 (-6) (-2))); (26, (mkU 4 2 (-6) (-2))); (27, (mkU 4 2 (-6) (-2))); (30, (mkU 2 0 0 0)); (31, (mkU 2 0 0 0)); (32, (mkU 2 0 0 0)); (33, (mkU 2 0 0 0)); (34, (mkU 2 0 0 0)); (35, (mkU 2 0 0 0)); (36, (mkU 4 0 0 0)); (37, (mkU 6 0 0 0)); (38, (mkU 4 0 0 0)); (39, (mkU 4 0 0 0)); (44, (mkU 0 0 (-2) 2)); (45, (mkU 0 0 (-2) 2)); (46, (mkU 0 0 (-2) 2)); (47, (mkU 0 0 0 2)); (48, (mkU 0 0 0 2)); (49, (mkU 0 2 (-2) 0)); (50, (mkU 0 2 (-2) 0)); (52, (mkU 0 2 (-2) 0)); (53, (mkU 0 2 (-2) 0)); (54, (mkU 0 2 (-2) 0)); (55, (mkU 0 2 (-2) 0)); (57, (mkU 0 2 (-2) 0)); (60, (mkU 0 0 0 2)); (61, (mkU 4 0 (-4) (-2))); (62, (mkU 2 2 (-6) (-2))); (63, (mkU (-6) 2 0 0)); (64, (mkU 4 0 (-2) 0)); (65, (mkU 0 0 0 2)); (66, (mkU 4 0 (-4) (-2))); (67, (mkU 0 0 0 2)); (68, (mkU 2 2 (-6) (-2))); (69, (mkU 0 0 0 2)); (70, (mkU (-6) 2 0 0)); (71, (mkU 0 0 0 2)); (72, (mkU 4 0 (-2) 0)); (73, (mkU 2 2 (-6) (-2))); (74, (mkU 2 2 (-6) (-2))); (75, (mkU 4 0 0 0)); (76, (mkU 2 0 0 0)); (77, (mkU 2 2 (-6) (-2))); (78, (mkU 4 2 (-6) (-2))); (79, (mkU 4 2 (-6) (-2))); (80, (mkU 4 2 (-6) (-2))); (81, (mkU 0 2 (-2) 0)); (82, (mkU 0 0 0 2)); (83, (mkU 0 0 0 2)); (84, (mkU (-6) 2 0 0)); (85, (mkU 4 0 (-2) 0)); (86, (mkU 2 2 (-6) (-2))); (87, (mkU 4 0 0 0)); (88, (mkU 2 0 0 0)); (89, (mkU 2 0 0 0)); (91, (mkU 0 2 (-6) (-2))); (95, (mkU 2 0 (-2) 0)); (96, (mkU 2 0 0 0)); (97, (mkU 4 0 (-2) 0)); (99, (mkU 0 0 0 2)); (102, (mkU 0 0 0 2)); (110, (mkU 0 2 (-2) 0)); (111, (mkU 0 0 0 2)); (112, (mkU 0 0 0 2)); (113, (mkU (-6) 2 0 0)); (114, (mkU 4 0 (-2) 0)); (115, (mkU 2 2 (-6) (-2))); (116, (mkU 4 0 0 0)); (117, (mkU 2 0 0 0)); (118, (mkU 2 0 0 0)); (120, (mkU 0 2 (-6) (-2))); (124, (mkU 2 0 (-2) 0)); (125, (mkU 2 0 0 0)); (126, (mkU 4 0 (-2) 0)); (128, (mkU 0 0 0 2)); (131, (mkU 0 0 0 2)); (139, (mkU 4 0 0 0)); (140, (mkU 2 0 0 0)); (141, (mkU 0 2 (-6) (-2))); (142, (mkU 2 2 (-6) (-2))); (143, (mkU 4 2 (-6) (-2))); (144, (mkU 0 0 0 2)); (145, (mkU 6 0 0 0)); (146, (mkU 4 0 (-4) (-2))); (147, (mkU (-6) 2 0 0)); (148, (mkU (-2) 2 (-4) (-2))); (149, (mkU 4 2 (-4) (-2))); (150, (mkU 4 0 (-4) 0)); (151, (mkU 0 0 0 2)); (152, (mkU 4 0 (-4) (-2))); (153, (mkU 4 0 (-4) 0)); (154, (mkU 0 0 0 2)); (157, (mkU 0 0 0 2)); (158, (mkU 4 2 (-4) (-2))); (159, (mkU 4 2 (-6) (-2))); (160, (mkU 4 2 (-6) (-2))); (161, (mkU 4 0 0 0)); (162, (mkU 2 0 0 0)); (163, (mkU 2 0 0 0)); (164, (mkU 2 2 (-6) (-2))); (165, (mkU 4 0 (-4) (-2))); (166, (mkU 2 2 (-6) (-2))); (167, (mkU 0 0 0 2)); (168, (mkU 0 0 (-2) 2)); (170, (mkU 0 0 0 2)); (172, (mkU 0 0 0 2)); (173, (mkU 4 0 (-4) (-2))); (174, (mkU 0 0 0 2)); (175, (mkU 2 2 (-6) (-2))); (176, (mkU 0 0 (-2) 2)); (177, (mkU 0 0 (-2) 2)); (178, (mkU 4 2 (-6) (-2))); (181, (mkU 0 0 (-2) 2))]
  (block [
   View 47 1 1 Nil;
   View 48 1 2 Nil;
   View 49 5 3 Nil;
   View 50 5 4 Nil;
   View 51 42 5 Nil;
   View 52 5 6 Nil;
   View 53 6 7 Nil;
   View 54 7 8 Nil;
   View 55 8 9 Nil;
   View 56 43 10 Nil;
   View 57 9 11 Nil;
   Frame
    (block [
     If (Sel 12 (Var 51) Nil)
      (block [
       For 58 27 (Cons (Fn 13 Nil) Nil)
        (block [
         If (Cmp Ge (Sel 14 (Var 52) (Cons (Var 58) Nil)) (Const (0 # 1) (mkU 0 2 (-2) 0)))
          (block [
           Store 53 16 (Cons (Var 58) Nil) (Sel 15 (Var 52) (Cons (Var 58) Nil));
           Store 54 17 (Cons (Var 58) Nil) (Const (0 # 1) (mkU 0 2 (-2) 0));
           Store 55 19 (Cons (Mul (Var 58) (Const (2 # 1) none)) Nil) (Sel 18 (Var 52) (Cons (Var 58) Nil));
           Store 55 20 (Cons (Add (Mul (Var 58) (Const (2 # 1) none)) (Const (1 # 1) none)) Nil) (Const (0 # 1) (mkU 0 2 (-2) 0))])
          (block [
           Store 54 22 (Cons (Var 58) Nil) (Neg (Sel 21 (Var 52) (Cons (Var 58) Nil)));
           Store 53 23 (Cons (Var 58) Nil) (Const (0 # 1) (mkU 0 2 (-2) 0));
           Store 55 24 (Cons (Mul (Var 58) (Const (2 # 1) none)) Nil) (Const (0 # 1) (mkU 0 2 (-2) 0));
           Store 55 26 (Cons (Add (Mul (Var 58) (Const (2 # 1) none)) (Const (1 # 1) none)) Nil) (Neg (Sel 25 (Var 52) (Cons (Var 58) Nil)))])]);
       Store 57 28 (Cons (Sel 29 (Var 56) Nil) Nil) (Var 52)])
      Skip;
     Let 59 (Const (0 # 1) none);
     Return]);
   Store 42 30 Nil (Var 59);
   View 60 1 31 Nil;
   View 61 10 32 Nil;
   View 62 11 33 Nil;
   View 63 12 34 Nil;
   View 64 13 35 Nil;
   Frame
    (block [
     View 65 60 36 Nil;
     View 66 61 37 Nil;
     Frame
      (block [
       Store 66 38 Nil (Add (Sub (Add (Sub (Const (5269252946772499 # 1250000000000) (mkU 4 0 (-4) (-2))) (Mul (Const (7213485820879837 # 2500000000000000) (mkU 4 0 (-4) (-4))) (Var 65))) (Mul (Const (468161292800073 # 6250000000000000) (mkU 4 0 (-4) (-6))) (Pow (Var 65) 2))) (Mul (Const (77807143441700321 # 100000000000000000000) (mkU 4 0 (-4) (-8))) (Pow (Var 65) 3))) (Mul (Const (501708265162663 # 156250000000000000000) (mkU 4 0 (-4) (-10))) (Pow (Var 65) 4)))]);
     View 67 60 39 Nil;
     View 68 62 40 Nil;
     Frame
      (block [
       Store 68 41 Nil (Sub (Sub (Add (Const (56987912853229539 # 100000000000000000) (mkU 2 2 (-6) (-2))) (Mul (Const (8939185201272869 # 5000000000000000000) (mkU 2 2 (-6) (-4))) (Var 67))) (Mul (Const (11999643454775959 # 2000000000000000000000) (mkU 2 2 (-6) (-6))) (Pow (Var 67) 2))) (Mul (Const (86964577115093407 # 10000000000000000000000000) (mkU 2 2 (-6) (-8))) (Pow (Var 67) 3)))]);
     View 69 60 42 Nil;
     View 70 63 43 Nil;
     Frame
      (block [
       Store 70 44 Nil (Sub (Add (Sub (Add (Const (99988785713136213 # 100000000000000) (mkU (-6) 2 0 0)) (Mul (Const (24802227495264801 # 500000000000000000) (mkU (-6) 2 0 (-2))) (Var 69))) (Mul (Const (74722666453460717 # 10000000000000000000) (mkU (-6) 2 0 (-4))) (Pow (Var 69) 2))) (Mul (Const (10273621109538621 # 250000000000000000000) (mkU (-6) 2 0 (-6))) (Pow (Var 69) 3))) (Mul (Const (6457894773161807 # 50000000000000000000000) (mkU (-6) 2 0 (-8))) (Pow (Var 69) 4)))]);
     View 71 60 45 Nil;
     View 72 64 46 Nil;
     Frame
      (block [
       Store 72 47 Nil (Add (Sub (Add (Sub (Const (3552894676098831 # 2000000000000000000000) (mkU 4 0 (-2) 0)) (Mul (Const (13910068945316351 # 250000000000000000000000) (mkU 4 0 (-2) (-2))) (Var 71))) (Mul (Const (5121536443747213 # 5000000000000000000000000) (mkU 4 0 (-2) (-4))) (Pow (Var 71) 2))) (Mul (Const (19590892027396233 # 2000000000000000000000000000) (mkU 4 0 (-2) (-6))) (Pow (Var 71) 3))) (Mul (Const (9115117186265681 # 250000000000000000000000000000) (mkU 4 0 (-2) (-8))) (Pow (Var 71) 4)))])]);
   View 73 11 48 Nil;
   View 74 14 49 Nil;
   Frame
    (block [
     Store 74 54 Nil (Div (Mul (Mul (Const (2 # 1) none) (Sel 50 (Var 73) Nil)) (Sel 51 (Var 73) Nil)) (Add (Sel 52 (Var 73) Nil) (Sel 53 (Var 73) Nil)))]);
   View 75 36 55 Nil;
   View 76 30 56 Nil;
   View 77 14 57 Nil;
   View 78 23 58 Nil;
   Frame
    (block [
     Store 78 59 Nil (Mul (Div (Var 75) (Var 76)) (Var 77))]);
   View 79 25 60 Nil;
   View 80 23 61 Nil;
   Frame
    (block [
     Store 80 62 Nil (Var 79)]);
   Let 81 (Div (Var 49) (Sel 63 (Var 40) Nil));
   View 82 47 64 Nil;
   View 83 47 65 Nil;
   View 84 12 66 Nil;
   View 85 13 67 Nil;
   View 86 11 68 Nil;
   View 87 36 69 Nil;
   View 88 32 70 Nil;
   View 89 34 71 Nil;
   View 90 41 72 Nil;
   View 91 22 73 Nil;
   Frame
    (block [
     Let 92 (Fn 74 Nil);
     Let 93 (Const (0 # 1) none);
     Let 94 (Const (0 # 1) none);
     Let 95 (Div (Var 81) (Mul (Var 84) (Var 87)));
     View 96 88 75 Nil;
     View 97 85 76 Nil;
     View 98 93 77 Nil;
     Frame
      (block [
       Store 98 78 Nil (Div (Mul (Abs (Var 95)) (Var 96)) (Var 97))]);
     View 99 82 79 Nil;
     Frame
      (block [
       Let 100 (Sub (Add (Sub (Const (62890054099689529 # 5000000000000000) none) (Mul (Const (8781170142941877 # 25000000000000000) (mkU 0 0 0 (-2))) (Var 99))) (Mul (Const (8645096088941217 # 2000000000000000000) (mkU 0 0 0 (-4))) (Pow (Var 99) 2))) (Mul (Const (9587096961594449 # 500000000000000000000) (mkU 0 0 0 (-6))) (Pow (Var 99) 3)));
       Return]);
     View 101 100 80 Nil;
     View 102 83 81 Nil;
     Frame
      (block [
       Let 103 (Sub (Add (Sub (Const (62890054099689529 # 5000000000000000) none) (Mul (Const (8781170142941877 # 25000000000000000) (mkU 0 0 0 (-2))) (Var 102))) (Mul (Const (8645096088941217 # 2000000000000000000) (mkU 0 0 0 (-4))) (Pow (Var 102) 2))) (Mul (Const (9587096961594449 # 500000000000000000000) (mkU 0 0 0 (-6))) (Pow (Var 102) 3)));
       Return]);
     View 104 103 82 Nil;
     Store 93 83 Nil (Add (Var 93) (Var 90));
     Let 105 (Fn 84 (Cons (Div (Var 101) (Var 104)) Nil));
     Let 106 (Mul (Var 93) (Var 101));
     Let 107 (Cmp Gt (Var 93) (Const (2300 # 1) none));
     Let 108 (Div (Mul (Sel 85 (Var 106) (Cons (Fn 86 (Cons (Var 107) Nil)) Nil)) (Var 88)) (Sel 87 (Var 89) (Cons (Fn 88 (Cons (Var 107) Nil)) Nil)));
     Store 94 95 (Cons (Fn 96 (Cons (Var 107) Nil)) Nil) (Fn 94 (Cons (Add (Add (Const (49371 # 1000) none) (Pow (Sub (Mul (Const (323 # 200) none) (Fn 89 (Cons (Var 108) Nil))) (Const (7 # 10) none)) 3)) (Pow (Mul (Fn 92 (Cons (Div (Const (2 # 1) none) (Add (Const (1 # 1) none) (Mul (Const (22 # 1) none) (Sel 90 (Var 101) (Cons (Fn 91 (Cons (Var 107) Nil)) Nil))))) Nil)) (Fn 93 (Cons (Var 108) Nil))) 3)) Nil));
     Let 109 (Pow (Sub (Mul (Const (9 # 5) none) (Fn 98 (Cons (Sel 97 (Var 93) (Cons (Var 107) Nil)) Nil))) (Const (3 # 2) none)) (-2));
     Store 94 105 (Cons (Var 107) Nil) (Mul (Div (Mul (Div (Var 109) (Const (8 # 1) none)) (Sel 99 (Var 106) (Cons (Var 107) Nil))) (Add (Const (1 # 1) none) (Mul (Mul (Const (127 # 10) none) (Sub (Fn 101 (Cons (Sel 100 (Var 101) (Cons (Var 107) Nil)) Nil)) (Const (1 # 1) none))) (Fn 102 (Cons (Div (Var 109) (Const (8 # 1) none)) Nil))))) (Add (Const (1 # 1) none) (Fn 104 (Cons (Div (Var 88) (Sel 103 (Var 89) (Cons (Var 107) Nil))) Nil))));
     Store 91 106 Nil (Div (Mul (Mul (Var 94) (Var 105)) (Var 86)) (Var 88))]);
   Let 110 (Div (Var 50) (Sel 107 (Var 40) Nil));
   View 111 48 108 Nil;
   View 112 48 109 Nil;
   View 113 12 110 Nil;
   View 114 13 111 Nil;
   View 115 11 112 Nil;
   View 116 36 113 Nil;
   View 117 32 114 Nil;
   View 118 34 115 Nil;
   View 119 41 116 Nil;
   View 120 22 117 Nil;
   Frame
    (block [
     Let 121 (Fn 118 Nil);
     Let 122 (Const (0 # 1) none);
     Let 123 (Const (0 # 1) none);
     Let 124 (Div (Var 110) (Mul (Var 113) (Var 116)));
     View 125 117 119 Nil;
     View 126 114 120 Nil;
     View 127 122 121 Nil;
     Frame
      (block [
       Store 127 122 Nil (Div (Mul (Abs (Var 124)) (Var 125)) (Var 126))]);
     View 128 111 123 Nil;
     Frame
      (block [
       Let 129 (Sub (Add (Sub (Const (62890054099689529 # 5000000000000000) none) (Mul (Const (8781170142941877 # 25000000000000000) (mkU 0 0 0 (-2))) (Var 128))) (Mul (Const (8645096088941217 # 2000000000000000000) (mkU 0 0 0 (-4))) (Pow (Var 128) 2))) (Mul (Const (9587096961594449 # 500000000000000000000) (mkU 0 0 0 (-6))) (Pow (Var 128) 3)));
       Return]);
     View 130 129 124 Nil;
     View 131 112 125 Nil;
     Frame
      (block [
       Let 132 (Sub (Add (Sub (Const (62890054099689529 # 5000000000000000) none) (Mul (Const (8781170142941877 # 25000000000000000) (mkU 0 0 0 (-2))) (Var 131))) (Mul (Const (8645096088941217 # 2000000000000000000) (mkU 0 0 0 (-4))) (Pow (Var 131) 2))) (Mul (Const (9587096961594449 # 500000000000000000000) (mkU 0 0 0 (-6))) (Pow (Var 131) 3)));
       Return]);
     View 133 132 126 Nil;
     Store 122 127 Nil (Add (Var 122) (Var 119));
     Let 134 (Fn 128 (Cons (Div (Var 130) (Var 133)) Nil));
     Let 135 (Mul (Var 122) (Var 130));
     Let 136 (Cmp Gt (Var 122) (Const (2300 # 1) none));
     Let 137 (Div (Mul (Sel 129 (Var 135) (Cons (Fn 130 (Cons (Var 136) Nil)) Nil)) (Var 117)) (Sel 131 (Var 118) (Cons (Fn 132 (Cons (Var 136) Nil)) Nil)));
     Store 123 139 (Cons (Fn 140 (Cons (Var 136) Nil)) Nil) (Fn 138 (Cons (Add (Add (Const (49371 # 1000) none) (Pow (Sub (Mul (Const (323 # 200) none) (Fn 133 (Cons (Var 137) Nil))) (Const (7 # 10) none)) 3)) (Pow (Mul (Fn 136 (Cons (Div (Const (2 # 1) none) (Add (Const (1 # 1) none) (Mul (Const (22 # 1) none) (Sel 134 (Var 130) (Cons (Fn 135 (Cons (Var 136) Nil)) Nil))))) Nil)) (Fn 137 (Cons (Var 137) Nil))) 3)) Nil));
     Let 138 (Pow (Sub (Mul (Const (9 # 5) none) (Fn 142 (Cons (Sel 141 (Var 122) (Cons (Var 136) Nil)) Nil))) (Const (3 # 2) none)) (-2));
     Store 123 149 (Cons (Var 136) Nil) (Mul (Div (Mul (Div (Var 138) (Const (8 # 1) none)) (Sel 143 (Var 135) (Cons (Var 136) Nil))) (Add (Const (1 # 1) none) (Mul (Mul (Const (127 # 10) none) (Sub (Fn 145 (Cons (Sel 144 (Var 130) (Cons (Var 136) Nil)) Nil)) (Const (1 # 1) none))) (Fn 146 (Cons (Div (Var 138) (Const (8 # 1) none)) Nil))))) (Add (Const (1 # 1) none) (Fn 148 (Cons (Div (Var 117) (Sel 147 (Var 118) (Cons (Var 136) Nil))) Nil))));
     Store 120 150 Nil (Div (Mul (Mul (Var 123) (Var 134)) (Var 115)) (Var 117))]);
   View 139 38 151 Nil;
   Let 140 (Div (Var 33) (Const (2 # 1) none));
   View 141 22 152 Nil;
   View 142 20 153 Nil;
   Frame
    (block [
     Let 143 (Div (Var 139) (Add (Div (Const (1 # 1) none) (Var 141)) (Div (Var 140) (Var 142))));
     Return]);
   Store 24 154 Nil (Var 143);
   View 144 1 155 Nil;
   View 145 37 156 Nil;
   View 146 10 157 Nil;
   View 147 12 158 Nil;
   View 148 18 159 Nil;
   View 149 17 160 Nil;
   View 150 21 161 Nil;
   Frame
    (block [
     Store 148 163 Nil (Mul (Var 147) (Sel 162 (Var 146) Nil));
     Store 149 164 Nil (Mul (Var 145) (Var 148));
     Store 150 167 Nil (Mul (Sel 165 (Var 146) Nil) (Sel 166 (Var 144) Nil))]);
   View 151 1 168 Nil;
   View 152 19 169 Nil;
   View 153 21 170 Nil;
   Frame
    (block [
     Store 153 171 Nil (Mul (Var 152) (Var 151))]);
   View 154 4 172 Nil;
   View 155 29 173 Nil;
   View 156 28 174 Nil;
   View 157 1 175 Nil;
   View 158 17 176 Nil;
   View 159 26 177 Nil;
   View 160 27 178 Nil;
   View 161 39 179 Nil;
   View 162 31 180 Nil;
   View 163 30 181 Nil;
   View 164 11 182 Nil;
   View 165 15 183 Nil;
   View 166 16 184 Nil;
   View 167 2 185 Nil;
   Frame
    (block [
     Let 168 (Const (0 # 1) (mkU 0 0 (-2) 2));
     For 169 206 (Cons (Fn 187 Nil) Nil)
      (block [
       View 170 154 188 (Cons (Sel 189 (Var 155) (Cons (Var 169) Nil)) Nil);
       View 171 156 190 (Cons (Var 169) Nil);
       Store 167 191 (Cons (Var 169) Nil) (Var 170);
       View 172 170 192 Nil;
       Frame
        (block [
         Let 173 (Add (Sub (Add (Sub (Const (5269252946772499 # 1250000000000) (mkU 4 0 (-4) (-2))) (Mul (Const (7213485820879837 # 2500000000000000) (mkU 4 0 (-4) (-4))) (Var 172))) (Mul (Const (468161292800073 # 6250000000000000) (mkU 4 0 (-4) (-6))) (Pow (Var 172) 2))) (Mul (Const (77807143441700321 # 100000000000000000000) (mkU 4 0 (-4) (-8))) (Pow (Var 172) 3))) (Mul (Const (501708265162663 # 156250000000000000000) (mkU 4 0 (-4) (-10))) (Pow (Var 172) 4)));
         Return]);
       Store 165 193 (Cons (Var 169) Nil) (Var 173);
       View 174 170 194 Nil;
       Frame
        (block [
         Let 175 (Sub (Sub (Add (Const (56987912853229539 # 100000000000000000) (mkU 2 2 (-6) (-2))) (Mul (Const (8939185201272869 # 5000000000000000000) (mkU 2 2 (-6) (-4))) (Var 174))) (Mul (Const (11999643454775959 # 2000000000000000000000) (mkU 2 2 (-6) (-6))) (Pow (Var 174) 2))) (Mul (Const (86964577115093407 # 10000000000000000000000000) (mkU 2 2 (-6) (-8))) (Pow (Var 174) 3)));
         Return]);
       Store 166 195 (Cons (Var 169) Nil) (Var 175);
       Store 159 201 (Cons (Var 169) Nil) (Add (Div (Sel 196 (Var 161) (Cons (Var 169) Nil)) (Add (Div (Sel 197 (Var 162) (Cons (Var 169) Nil)) (Mul (Const (2 # 1) none) (Sel 198 (Var 166) (Cons (Var 169) Nil)))) (Div (Var 163) (Mul (Const (2 # 1) none) (Sel 199 (Var 164) (Cons (Var 171) Nil)))))) (Sel 200 (Var 160) (Cons (Var 169) Nil)));
       Store 168 205 (Cons (Var 169) Nil) (Div (Mul (Sel 202 (Var 159) (Cons (Var 169) Nil)) (Sub (Var 170) (Sel 203 (Var 157) (Cons (Var 171) Nil)))) (Sel 204 (Var 158) (Cons (Var 171) Nil)))]);
     View 176 168 207 Nil;
     Return]);
   View 177 176 208 Nil;
   Let 178 (Const (0 # 1) (mkU 4 2 (-6) (-2)));
   Store 44 222 Nil (Div (Add (Add (Add (Add (Mul (Sel 209 (Var 23) Nil) (Sub (Sel 210 (Var 1) Nil) (Sel 211 (Var 1) Nil))) (Mul (Sel 212 (Var 23) Nil) (Sub (Sel 213 (Var 1) Nil) (Sel 214 (Var 1) Nil)))) (Mul (Sel 215 (Var 24) Nil) (Sub (Sel 216 (Var 1) Nil) (Sel 217 (Var 1) Nil)))) (Mul (Sel 218 (Var 24) Nil) (Sub (Sel 219 (Var 1) Nil) (Sel 220 (Var 1) Nil)))) (Mul (Var 178) (Sub (Var 3) (Sel 221 (Var 1) Nil)))) (Var 17));
   Store 45 230 Nil (Div (Add (Mul (Var 6) (Sub (Mul (Sel 223 (Var 10) Nil) (Sel 224 (Var 1) Nil)) (Sel 225 (Var 21) Nil))) (Mul (Var 7) (Sub (Mul (Sel 226 (Var 10) Nil) (Sel 227 (Var 1) Nil)) (Sel 228 (Var 21) Nil)))) (Sel 229 (Var 17) Nil));
   For 179 243 (Cons (Fn 231 Nil) Nil)
    (block [
     View 180 28 232 (Cons (Var 179) Nil);
     Store 44 235 (Cons (Var 180) Nil) (Add (Sel 233 (Var 44) (Cons (Var 180) Nil)) (Sel 234 (Var 177) (Cons (Var 179) Nil)));
     Store 45 242 (Cons (Var 180) Nil) (Add (Sel 236 (Var 45) (Cons (Var 180) Nil)) (Div (Mul (Sel 237 (Var 8) (Cons (Var 179) Nil)) (Sub (Mul (Sel 238 (Var 15) (Cons (Var 179) Nil)) (Sel 239 (Var 2) (Cons (Var 179) Nil))) (Sel 240 (Var 21) (Cons (Var 180) Nil)))) (Sel 241 (Var 17) (Cons (Var 180) Nil))))]);
   Store 45 245 Nil (Div (Sel 244 (Var 45) Nil) (Var 40));
   Store 46 246 Nil (Add (Var 44) (Var 45));
   View 181 46 247 Nil;
   Return]).
(** multisim/precomp_funs.py 3274 *)
Definition f_solve_connector_3w : func := mkF "solve_connector_3w" 3274
  [("T", 1); ("ports_all", 2); ("cp_T", 3); ("dm", 4); ("port_link_idx", 5); ("res", 6); ("stepnum", 7)]
  []
  [(1, (mkU 0 0 0 2)); (2, (mkU 0 0 0 2)); (3, (mkU 4 0 (-4) (-2))); (4, (mkU 0 2 (-2) 0)); (6, (mkU 0 0 0 2)); (8, (mkU 0 0 0 2)); (10, (mkU 0 0 0 2)); (12, (mkU 0 0 0 2)); (13, (mkU 4 0 (-4) (-2))); (16, (mkU 0 0 0 2)); (17, (mkU 4 0 (-4) (-2))); (18, (mkU 4 0 (-4) (-2))); (19, (mkU 0 0 0 2)); (20, (mkU 0 0 0 2)); (22, (mkU 0 0 0 2)); (23, (mkU 0 0 0 2))]
  (block [
   View 8 2 1 Nil;
   View 9 5 2 Nil;
   View 10 1 3 Nil;
   Frame
    (block [
     For 11 8 (Cons (Fn 4 Nil) Nil)
      (block [
       Store 10 7 (Cons (Var 11) Nil) (Sel 5 (Var 8) (Cons (Sel 6 (Var 9) (Cons (Var 11) Nil)) Nil))])]);
   View 12 1 9 Nil;
   View 13 3 10 Nil;
   Frame
    (block [
     Store 13 11 Nil (Add (Sub (Add (Sub (Const (5269252946772499 # 1250000000000) (mkU 4 0 (-4) (-2))) (Mul (Const (7213485820879837 # 2500000000000000) (mkU 4 0 (-4) (-4))) (Var 12))) (Mul (Const (468161292800073 # 6250000000000000) (mkU 4 0 (-4) (-6))) (Pow (Var 12) 2))) (Mul (Const (77807143441700321 # 100000000000000000000) (mkU 4 0 (-4) (-8))) (Pow (Var 12) 3))) (Mul (Const (501708265162663 # 156250000000000000000) (mkU 4 0 (-4) (-10))) (Pow (Var 12) 4)))]);
   Let 14 (Cmp Gt (Var 4) (Const (0 # 1) (mkU 0 2 (-2) 0)));
   Let 15 (Cmp Lt (Var 4) (Const (0 # 1) (mkU 0 2 (-2) 0)));
   If (Cmp Eq (Red Sum 12 (Var 14)) (Const (2 # 1) none))
    (block [
     Let 16 (Div (Red Sum 14 (Sel 13 (Var 1) (Cons (Var 14) Nil))) (Const (2 # 1) none));
     Frame
      (block [
       Let 17 (Add (Sub (Add (Sub (Const (5269252946772499 # 1250000000000) (mkU 4 0 (-4) (-2))) (Mul (Const (7213485820879837 # 2500000000000000) (mkU 4 0 (-4) (-4))) (Var 16))) (Mul (Const (468161292800073 # 6250000000000000) (mkU 4 0 (-4) (-6))) (Pow (Var 16) 2))) (Mul (Const (77807143441700321 # 100000000000000000000) (mkU 4 0 (-4) (-8))) (Pow (Var 16) 3))) (Mul (Const (501708265162663 # 156250000000000000000) (mkU 4 0 (-4) (-10))) (Pow (Var 16) 4)));
       Return]);
     View 18 17 15 Nil;
     Let 19 (Div (Red Sum 19 (Mul (Mul (Sel 16 (Var 4) (Cons (Var 14) Nil)) (Sel 17 (Var 3) (Cons (Var 14) Nil))) (Sel 18 (Var 1) (Cons (Var 14) Nil)))) (Mul (Mul (Var 18) (Neg (Const (1 # 1) none))) (Sel 20 (Var 4) (Cons (Var 15) Nil))));
     Store 1 22 (Cons (Var 14) Nil) (Sel 21 (Var 1) (Cons (Var 15) Nil));
     Store 1 23 (Cons (Var 15) Nil) (Var 19)])
    (block [
     If (Cmp Eq (Red Sum 24 (Var 15)) (Const (2 # 1) none))
      (block [
       Let 20 (Div (Red Sum 26 (Sel 25 (Var 1) (Cons (Var 15) Nil))) (Const (2 # 1) none));
       Store 1 28 (Cons (Var 15) Nil) (Sel 27 (Var 1) (Cons (Var 14) Nil));
       Store 1 29 (Cons (Var 14) Nil) (Var 20)])
      (block [
       If (Cmp Eq (Red Sum 30 (Var 14)) (Const (1 # 1) none))
        (block [
         Let 21 (Cmp Eq (Var 4) (Const (0 # 1) (mkU 0 2 (-2) 0)));
         Store 1 34 (Cons (Var 21) Nil) (Div (Red Sum 33 (Sel 31 (Var 1) (Cons (Fn 32 (Cons (Var 21) Nil)) Nil))) (Const (2 # 1) none));
         Store 1 36 (Cons (Var 15) Nil) (Sel 35 (Var 1) (Cons (Var 14) Nil));
         Store 1 40 (Cons (Var 14) Nil) (Div (Red Sum 39 (Sel 37 (Var 1) (Cons (Fn 38 (Cons (Var 14) Nil)) Nil))) (Const (2 # 1) none))])
        (block [
         Let 22 (Div (Add (Sel 41 (Var 1) Nil) (Sel 42 (Var 1) Nil)) (Const (2 # 1) none));
         Let 23 (Div (Add (Sel 43 (Var 1) Nil) (Sel 44 (Var 1) Nil)) (Const (2 # 1) none));
         Store 1 47 Nil (Div (Add (Sel 45 (Var 1) Nil) (Sel 46 (Var 1) Nil)) (Const (2 # 1) none));
         Store 1 48 Nil (Var 22);
         Store 1 49 Nil (Var 23)])])]);
   Store 6 50 (Cons (Sel 51 (Var 7) Nil) Nil) (Var 1)]).
(** multisim/precomp_funs.py 3358 *)
Definition f_solve_platehex : func := mkF "solve_platehex" 3358
  [("T", 1); ("T_port", 2); ("T_mean", 3); ("ports_all", 4); ("res", 5); ("dm_io", 6); ("dm_port", 7); ("cp_mean", 8); ("lam_mean", 9); ("rho_mean", 10); ("ny_mean", 11); ("lam_wll", 12); ("alpha_i", 13); ("UA_fld_wll", 14); ("UA_fld_wll_fld", 15); ("port_own_idx", 16); ("port_link_idx", 17); ("A_plate_eff", 18); ("A_channel", 19); ("d_h", 20); ("s_plate", 21); ("cell_dist", 22); ("num_A", 23); ("num_channels_sup", 24); ("num_channels_dmd", 25); ("corr_Re", 26); ("stepnum", 27)]
  []
  [(1, (mkU 0 0 0 2)); (2, (mkU 0 0 0 2)); (3, (mkU 0 0 0 2)); (4, (mkU 0 0 0 2)); (5, (mkU 0 0 0 2)); (6, (mkU 0 2 (-2) 0)); (7, (mkU 0 2 (-2) 0)); (8, (mkU 4 0 (-4) (-2))); (9, (mkU 2 2 (-6) (-2))); (10, (mkU (-6) 2 0 0)); (11, (mkU 4 0 (-2) 0)); (12, (mkU 2 2 (-6) (-2))); (13, (mkU 0 2 (-6) (-2))); (14, (mkU 4 2 (-6) (-2))); (15, (mkU 4 2 (-6) (-2))); (18, (mkU 4 0 0 0)); (19, (mkU 4 0 0 0)); (20, (mkU 2 0 0 0)); (21, (mkU 2 0 0 0)); (22, (mkU 2 0 0 0)); (28, (mkU 0 0 0 2)); (30, (mkU 0 0 0 2)); (32, (mkU 0 2 (-2) 0)); (33, (mkU 0 0 0 2)); (34, (mkU 0 0 0 2)); (35, (mkU 0 2 (-2) 0)); (36, (mkU 0 0 0 2)); (37, (mkU 0 0 0 2)); (38, (mkU 0 0 0 2)); (39, (mkU 4 0 (-4) (-2))); (40, (mkU 2 2 (-6) (-2))); (41, (mkU (-6) 2 0 0)); (42, (mkU 4 0 (-2) 0)); (43, (mkU 0 0 0 2)); (44, (mkU 4 0 (-4) (-2))); (45, (mkU 0 0 0 2)); (46, (mkU 2 2 (-6) (-2))); (47, (mkU 0 0 0 2)); (48, (mkU (-6) 2 0 0)); (49, (mkU 0 0 0 2)); (50, (mkU 4 0 (-2) 0)); (51, (mkU 0 2 (-2) 0)); (52, (mkU 0 0 0 2)); (53, (mkU 0 0 0 2)); (54, (mkU (-6) 2 0 0)); (55, (mkU 4 0 (-2) 0)); (56, (mkU 2 2 (-6) (-2))); (57, (mkU 4 0 0 0)); (58, (mkU 2 0 0 0)); (59, (mkU 2 0 0 0)); (61, (mkU 0 2 (-6) (-2))); (65, (mkU 2 0 (-2) 0)); (66, (mkU 2 0 0 0)); (67, (mkU 4 0 (-2) 0)); (69, (mkU 0 0 0 2)); (72, (mkU 0 0 0 2)); (80, (mkU 0 2 (-2) 0)); (81, (mkU 0 0 0 2)); (82, (mkU 0 0 0 2)); (83, (mkU (-6) 2 0 0)); (84, (mkU 4 0 (-2) 0)); (85, (mkU 2 2 (-6) (-2))); (86, (mkU 4 0 0 0)); (87, (mkU 2 0 0 0)); (88, (mkU 2 0 0 0)); (90, (mkU 0 2 (-6) (-2))); (94, (mkU 2 0 (-2) 0)); (95, (mkU 2 0 0 0)); (96, (mkU 4 0 (-2) 0)); (98, (mkU 0 0 0 2)); (101, (mkU 0 0 0 2)); (109, (mkU 4 0 0 0)); (110, (mkU 2 0 0 0)); (111, (mkU 0 2 (-6) (-2))); (112, (mkU 2 2 (-6) (-2))); (113, (mkU 4 2 (-6) (-2))); (114, (mkU 4 2 (-6) (-2))); (115, (mkU (-4) (-2) 6 2)); (117, (mkU 4 2 (-6) (-2))); (118, (mkU 4 2 (-6) (-2))); (119, (mkU 4 2 (-6) (-2))); (120, (mkU 4 2 (-6) (-2)))]
  (block [
   View 28 4 1 Nil;
   View 29 17 2 Nil;
   View 30 2 3 Nil;
   Frame
    (block [
     For 31 8 (Cons (Fn 4 Nil) Nil)
      (block [
       Store 30 7 (Cons (Var 31) Nil) (Sel 5 (Var 28) (Cons (Sel 6 (Var 29) (Cons (Var 31) Nil)) Nil))])]);
   If (Cmp Ge (Sel 9 (Var 6) Nil) (Const (0 # 1) (mkU 0 2 (-2) 0)))
    (block [
     View 32 6 10 Nil;
     View 33 2 11 Nil;
     View 34 2 12 Nil;
     Store 7 14 Nil (Sel 13 (Var 6) Nil);
     Store 7 15 Nil (Const (0 # 1) (mkU 0 2 (-2) 0))])
    (block [
     Let 32 (Neg (Sel 16 (Var 6) Nil));
     View 33 2 17 Nil;
     View 34 2 18 Nil;
     Store 7 19 Nil (Const (0 # 1) (mkU 0 2 (-2) 0));
     Store 7 21 Nil (Neg (Sel 20 (Var 6) Nil))]);
   If (Cmp Ge (Sel 22 (Var 6) Nil) (Const (0 # 1) (mkU 0 2 (-2) 0)))
    (block [
     View 35 6 23 Nil;
     View 36 2 24 Nil;
     View 37 2 25 Nil;
     Store 7 27 Nil (Sel 26 (Var 6) Nil);
     Store 7 28 Nil (Const (0 # 1) (mkU 0 2 (-2) 0))])
    (block [
     Let 35 (Neg (Sel 29 (Var 6) Nil));
     View 36 2 30 Nil;
     View 37 2 31 Nil;
     Store 7 32 Nil (Const (0 # 1) (mkU 0 2 (-2) 0));
     Store 7 34 Nil (Neg (Sel 33 (Var 6) Nil))]);
   If (Fn 35 (Cons (Cmp Ne (Var 32) (Const (0 # 1) (mkU 0 2 (-2) 0))) (Cons (Cmp Ne (Var 35) (Const (0 # 1) (mkU 0 2 (-2) 0))) Nil)))
    (block [
     Store 3 36 Nil (Div (Add (Var 33) (Var 34)) (Const (2 # 1) none));
     Store 3 37 Nil (Div (Add (Var 36) (Var 37)) (Const (2 # 1) none));
     View 38 3 38 Nil;
     View 39 8 39 Nil;
     View 40 9 40 Nil;
     View 41 10 41 Nil;
     View 42 11 42 Nil;
     Frame
      (block [
       View 43 38 43 Nil;
       View 44 39 44 Nil;
       Frame
        (block [
         Store 44 45 Nil (Add (Sub (Add (Sub (Const (5269252946772499 # 1250000000000) (mkU 4 0 (-4) (-2))) (Mul (Const (7213485820879837 # 2500000000000000) (mkU 4 0 (-4) (-4))) (Var 43))) (Mul (Const (468161292800073 # 6250000000000000) (mkU 4 0 (-4) (-6))) (Pow (Var 43) 2))) (Mul (Const (77807143441700321 # 100000000000000000000) (mkU 4 0 (-4) (-8))) (Pow (Var 43) 3))) (Mul (Const (501708265162663 # 156250000000000000000) (mkU 4 0 (-4) (-10))) (Pow (Var 43) 4)))]);
       View 45 38 46 Nil;
       View 46 40 47 Nil;
       Frame
        (block [
         Store 46 48 Nil (Sub (Sub (Add (Const (56987912853229539 # 100000000000000000) (mkU 2 2 (-6) (-2))) (Mul (Const (8939185201272869 # 5000000000000000000) (mkU 2 2 (-6) (-4))) (Var 45))) (Mul (Const (11999643454775959 # 2000000000000000000000) (mkU 2 2 (-6) (-6))) (Pow (Var 45) 2))) (Mul (Const (86964577115093407 # 10000000000000000000000000) (mkU 2 2 (-6) (-8))) (Pow (Var 45) 3)))]);
       View 47 38 49 Nil;
       View 48 41 50 Nil;
       Frame
        (block [
         Store 48 51 Nil (Sub (Add (Sub (Add (Const (99988785713136213 # 100000000000000) (mkU (-6) 2 0 0)) (Mul (Const (24802227495264801 # 500000000000000000) (mkU (-6) 2 0 (-2))) (Var 47))) (Mul (Const (74722666453460717 # 10000000000000000000) (mkU (-6) 2 0 (-4))) (Pow (Var 47) 2))) (Mul (Const (10273621109538621 # 250000000000000000000) (mkU (-6) 2 0 (-6))) (Pow (Var 47) 3))) (Mul (Const (6457894773161807 # 50000000000000000000000) (mkU (-6) 2 0 (-8))) (Pow (Var 47) 4)))]);
       View 49 38 52 Nil;
       View 50 42 53 Nil;
       Frame
        (block [
         Store 50 54 Nil (Add (Sub (Add (Sub (Const (3552894676098831 # 2000000000000000000000) (mkU 4 0 (-2) 0)) (Mul (Const (13910068945316351 # 250000000000000000000000) (mkU 4 0 (-2) (-2))) (Var 49))) (Mul (Const (5121536443747213 # 5000000000000000000000000) (mkU 4 0 (-2) (-4))) (Pow (Var 49) 2))) (Mul (Const (19590892027396233 # 2000000000000000000000000000) (mkU 4 0 (-2) (-6))) (Pow (Var 49) 3))) (Mul (Const (9115117186265681 # 250000000000000000000000000000) (mkU 4 0 (-2) (-8))) (Pow (Var 49) 4)))])]);
     Let 51 (Div (Var 32) (Var 24));
     View 52 3 55 Nil;
     View 53 3 56 Nil;
     View 54 10 57 Nil;
     View 55 11 58 Nil;
     View 56 9 59 Nil;
     View 57 19 60 Nil;
     View 58 20 61 Nil;
     View 59 22 62 Nil;
     View 60 26 63 Nil;
     View 61 13 64 Nil;
     Frame
      (block [
       Let 62 (Fn 65 Nil);
       Let 63 (Const (0 # 1) none);
       Let 64 (Const (0 # 1) none);
       Let 65 (Div (Var 51) (Mul (Var 54) (Var 57)));
       View 66 58 66 Nil;
       View 67 55 67 Nil;
       View 68 63 68 Nil;
       Frame
        (block [
         Store 68 69 Nil (Div (Mul (Abs (Var 65)) (Var 66)) (Var 67))]);
       View 69 52 70 Nil;
       Frame
        (block [
         Let 70 (Sub (Add (Sub (Const (62890054099689529 # 5000000000000000) none) (Mul (Const (8781170142941877 # 25000000000000000) (mkU 0 0 0 (-2))) (Var 69))) (Mul (Const (8645096088941217 # 2000000000000000000) (mkU 0 0 0 (-4))) (Pow (Var 69) 2))) (Mul (Const (9587096961594449 # 500000000000000000000) (mkU 0 0 0 (-6))) (Pow (Var 69) 3)));
         Return]);
       View 71 70 71 Nil;
       View 72 53 72 Nil;
       Frame
        (block [
         Let 73 (Sub (Add (Sub (Const (62890054099689529 # 5000000000000000) none) (Mul (Const (8781170142941877 # 25000000000000000) (mkU 0 0 0 (-2))) (Var 72))) (Mul (Const (8645096088941217 # 2000000000000000000) (mkU 0 0 0 (-4))) (Pow (Var 72) 2))) (Mul (Const (9587096961594449 # 500000000000000000000) (mkU 0 0 0 (-6))) (Pow (Var 72) 3)));
         Return]);
       View 74 73 73 Nil;
       Store 63 74 Nil (Add (Var 63) (Var 60));
       Let 75 (Fn 75 (Cons (Div (Var 71) (Var 74)) Nil));
       Let 76 (Mul (Var 63) (Var 71));
       Let 77 (Cmp Gt (Var 63) (Const (2300 # 1) none));
       Let 78 (Div (Mul (Sel 76 (Var 76) (Cons (Fn 77 (Cons (Var 77) Nil)) Nil)) (Var 58)) (Var 59));
       Store 64 82 (Cons (Fn 83 (Cons (Var 77) Nil)) Nil) (Fn 81 (Cons (Add (Add (Const (49371 # 1000) none) (Pow (Sub (Mul (Const (323 # 200) none) (Fn 78 (Cons (Var 78) Nil))) (Const (7 # 10) none)) 3)) (Pow (Mul (Fn 79 (Cons (Div (Const (2 # 1) none) (Add (Const (1 # 1) none) (Mul (Const (22 # 1) none) (Var 71)))) Nil)) (Fn 80 (Cons (Var 78) Nil))) 3)) Nil));
       Let 79 (Pow (Sub (Mul (Const (9 # 5) none) (Fn 85 (Cons (Sel 84 (Var 63) (Cons (Var 77) Nil)) Nil))) (Const (3 # 2) none)) (-2));
       Store 64 90 (Cons (Var 77) Nil) (Mul (Div (Mul (Div (Var 79) (Const (8 # 1) none)) (Sel 86 (Var 76) (Cons (Var 77) Nil))) (Add (Const (1 # 1) none) (Mul (Mul (Const (127 # 10) none) (Sub (Fn 87 (Cons (Var 71) Nil)) (Const (1 # 1) none))) (Fn 88 (Cons (Div (Var 79) (Const (8 # 1) none)) Nil))))) (Add (Const (1 # 1) none) (Fn 89 (Cons (Div (Var 58) (Var 59)) Nil))));
       Store 61 91 Nil (Div (Mul (Mul (Var 64) (Var 75)) (Var 56)) (Var 58))]);
     Let 80 (Div (Var 35) (Var 25));
     View 81 3 92 Nil;
     View 82 3 93 Nil;
     View 83 10 94 Nil;
     View 84 11 95 Nil;
     View 85 9 96 Nil;
     View 86 19 97 Nil;
     View 87 20 98 Nil;
     View 88 22 99 Nil;
     View 89 26 100 Nil;
     View 90 13 101 Nil;
     Frame
      (block [
       Let 91 (Fn 102 Nil);
       Let 92 (Const (0 # 1) none);
       Let 93 (Const (0 # 1) none);
       Let 94 (Div (Var 80) (Mul (Var 83) (Var 86)));
       View 95 87 103 Nil;
       View 96 84 104 Nil;
       View 97 92 105 Nil;
       Frame
        (block [
         Store 97 106 Nil (Div (Mul (Abs (Var 94)) (Var 95)) (Var 96))]);
       View 98 81 107 Nil;
       Frame
        (block [
         Let 99 (Sub (Add (Sub (Const (62890054099689529 # 5000000000000000) none) (Mul (Const (8781170142941877 # 25000000000000000) (mkU 0 0 0 (-2))) (Var 98))) (Mul (Const (8645096088941217 # 2000000000000000000) (mkU 0 0 0 (-4))) (Pow (Var 98) 2))) (Mul (Const (9587096961594449 # 500000000000000000000) (mkU 0 0 0 (-6))) (Pow (Var 98) 3)));
         Return]);
       View 100 99 108 Nil;
       View 101 82 109 Nil;
       Frame
        (block [
         Let 102 (Sub (Add (Sub (Const (62890054099689529 # 5000000000000000) none) (Mul (Const (8781170142941877 # 25000000000000000) (mkU 0 0 0 (-2))) (Var 101))) (Mul (Const (8645096088941217 # 2000000000000000000) (mkU 0 0 0 (-4))) (Pow (Var 101) 2))) (Mul (Const (9587096961594449 # 500000000000000000000) (mkU 0 0 0 (-6))) (Pow (Var 101) 3)));
         Return]);
       View 103 102 110 Nil;
       Store 92 111 Nil (Add (Var 92) (Var 89));
       Let 104 (Fn 112 (Cons (Div (Var 100) (Var 103)) Nil));
       Let 105 (Mul (Var 92) (Var 100));
       Let 106 (Cmp Gt (Var 92) (Const (2300 # 1) none));
       Let 107 (Div (Mul (Sel 113 (Var 105) (Cons (Fn 114 (Cons (Var 106) Nil)) Nil)) (Var 87)) (Var 88));
       Store 93 119 (Cons (Fn 120 (Cons (Var 106) Nil)) Nil) (Fn 118 (Cons (Add (Add (Const (49371 # 1000) none) (Pow (Sub (Mul (Const (323 # 200) none) (Fn 115 (Cons (Var 107) Nil))) (Const (7 # 10) none)) 3)) (Pow (Mul (Fn 116 (Cons (Div (Const (2 # 1) none) (Add (Const (1 # 1) none) (Mul (Const (22 # 1) none) (Var 100)))) Nil)) (Fn 117 (Cons (Var 107) Nil))) 3)) Nil));
       Let 108 (Pow (Sub (Mul (Const (9 # 5) none) (Fn 122 (Cons (Sel 121 (Var 92) (Cons (Var 106) Nil)) Nil))) (Const (3 # 2) none)) (-2));
       Store 93 127 (Cons (Var 106) Nil) (Mul (Div (Mul (Div (Var 108) (Const (8 # 1) none)) (Sel 123 (Var 105) (Cons (Var 106) Nil))) (Add (Const (1 # 1) none) (Mul (Mul (Const (127 # 10) none) (Sub (Fn 124 (Cons (Var 100) Nil)) (Const (1 # 1) none))) (Fn 125 (Cons (Div (Var 108) (Const (8 # 1) none)) Nil))))) (Add (Const (1 # 1) none) (Fn 126 (Cons (Div (Var 87) (Var 88)) Nil))));
       Store 90 128 Nil (Div (Mul (Mul (Var 93) (Var 104)) (Var 85)) (Var 87))]);
     View 109 18 129 Nil;
     Let 110 (Div (Var 21) (Const (2 # 1) none));
     View 111 13 130 Nil;
     View 112 12 131 Nil;
     Frame
      (block [
       Let 113 (Div (Var 109) (Add (Div (Const (1 # 1) none) (Var 111)) (Div (Var 110) (Var 112))));
       Return]);
     Store 14 132 Nil (Var 113);
     Let 114 (Ite (Fn 135 Nil) (Sel 133 (Var 14) Nil) (Sel 134 (Var 14) Nil));
     Frame
      (block [
       Let 115 (Div (Const (1 # 1) none) (Sel 136 (Var 114) Nil));
       For 116 138 Nil
        (block [
         View 117 114 137 (Cons (Var 116) Nil);
         Let 115 (Add (Var 115) (Div (Const (1 # 1) none) (Var 117)))]);
       Let 118 (Div (Const (1 # 1) none) (Var 115));
       Return]);
     Store 15 139 Nil (Mul (Var 118) (Var 23));
     Let 119 (Mul (Var 32) (Sel 140 (Var 8) Nil));
     Let 120 (Mul (Var 35) (Sel 141 (Var 8) Nil));
     If (Cmp Ne (Var 119) (Const (0 # 1) (mkU 4 2 (-6) (-2))))
      (block [
       Let 121 (Div (Sel 142 (Var 15) Nil) (Var 119))])
      (block [
       Let 121 (Fn 143 Nil)]);
     If (Cmp Ne (Var 120) (Const (0 # 1) (mkU 4 2 (-6) (-2))))
      (block [
       Let 122 (Div (Var 119) (Var 120))])
      (block [
       Let 122 (Fn 144 Nil)]);
     Let 123 (Mul (Sub (Var 122) (Const (1 # 1) none)) (Var 121));
     If (Fn 145 (Cons (Cmp Ne (Var 122) (Const (1 # 1) none)) (Cons (Cmp Lt (Var 123) (Const (100 # 1) none)) Nil)))
      (block [
       Let 124 (Div (Sub (Const (1 # 1) none) (Fn 146 (Cons (Var 123) Nil))) (Sub (Const (1 # 1) none) (Mul (Var 122) (Fn 147 (Cons (Var 123) Nil)))))])
      (block [
       If (Cmp Gt (Var 123) (Const (100 # 1) none))
        (block [
         Let 124 (Div (Const (1 # 1) none) (Var 122))])
        (block [
         Let 124 (Div (Var 121) (Add (Const (1 # 1) none) (Var 121)))])]);
     Let 125 (Mul (Var 124) (Var 122));
     If (Cmp Ne (Var 124) (Var 124))
      (block [
       Let 124 (Const (0 # 1) none);
       Let 125 (Const (0 # 1) none)])
      Skip;
     Let 34 (Sub (Var 33) (Mul (Var 124) (Sub (Var 33) (Var 36))));
     Let 37 (Add (Var 36) (Mul (Var 125) (Sub (Var 33) (Var 36))))])
    (block [
     If (Cmp Ne (Var 32) (Const (0 # 1) (mkU 0 2 (-2) 0)))
      (block [
       View 34 33 148 Nil])
      (block [
       If (Cmp Ne (Var 35) (Const (0 # 1) (mkU 0 2 (-2) 0)))
        (block [
         View 37 36 149 Nil])
        Skip])]);
   If (Cmp Ge (Sel 150 (Var 6) Nil) (Const (0 # 1) (mkU 0 2 (-2) 0)))
    (block [
     Store 1 151 Nil (Var 33);
     Store 1 152 Nil (Var 34)])
    (block [
     Store 1 153 Nil (Var 33);
     Store 1 154 Nil (Var 34)]);
   If (Cmp Ge (Sel 155 (Var 6) Nil) (Const (0 # 1) (mkU 0 2 (-2) 0)))
    (block [
     Store 1 156 Nil (Var 36);
     Store 1 157 Nil (Var 37)])
    (block [
     Store 1 158 Nil (Var 36);
     Store 1 159 Nil (Var 37)]);
   Store 5 160 (Cons (Sel 161 (Var 27) Nil) Nil) (Var 1)]).
(** multisim/precomp_funs.py 3569 *)
Definition f__get_p_arr_pump : func := mkF "_get_p_arr_pump" 3569
  [("ports_all", 1); ("port_link_idx", 2); ("T", 3)]
  []
  [(1, (mkU 0 0 0 2)); (3, (mkU 0 0 0 2))]
  (block [
   Store 3 3 Nil (Sel 2 (Var 1) (Cons (Var 2) Nil))]).
(** multisim/precomp_funs.py 3585 *)
Definition f_solve_mix : func := mkF "solve_mix" 3585
  [("port_array", 1); ("_port_link_idx", 2); ("dm_io", 3); ("T", 4)]
  []
  [(1, (mkU 0 0 0 2)); (3, (mkU 0 2 (-2) 0)); (4, (mkU 0 0 0 2)); (5, (mkU 0 0 0 2)); (6, (mkU 4 0 (-4) (-2))); (7, (mkU 4 0 (-4) (-2))); (8, (mkU 0 0 0 2)); (9, (mkU 0 0 0 2)); (10, (mkU 0 0 0 2))]
  (block [
   Store 4 2 Nil (Sel 1 (Var 1) (Cons (Var 2) Nil));
   If (Cmp Ne (Sel 3 (Var 3) Nil) (Const (0 # 1) (mkU 0 2 (-2) 0)))
    (block [
     Store 4 6 Nil (Div (Add (Sel 4 (Var 4) Nil) (Sel 5 (Var 4) Nil)) (Const (2 # 1) none));
     View 5 4 7 Nil;
     Frame
      (block [
       Let 6 (Add (Sub (Add (Sub (Const (5269252946772499 # 1250000000000) (mkU 4 0 (-4) (-2))) (Mul (Const (7213485820879837 # 2500000000000000) (mkU 4 0 (-4) (-4))) (Var 5))) (Mul (Const (468161292800073 # 6250000000000000) (mkU 4 0 (-4) (-6))) (Pow (Var 5) 2))) (Mul (Const (77807143441700321 # 100000000000000000000) (mkU 4 0 (-4) (-8))) (Pow (Var 5) 3))) (Mul (Const (501708265162663 # 156250000000000000000) (mkU 4 0 (-4) (-10))) (Pow (Var 5) 4)));
       Return]);
     View 7 6 8 Nil;
     Let 8 (Div (Add (Mul (Mul (Sel 9 (Var 3) Nil) (Sel 10 (Var 7) Nil)) (Sel 11 (Var 4) Nil)) (Mul (Mul (Sel 12 (Var 3) Nil) (Sel 13 (Var 7) Nil)) (Sel 14 (Var 4) Nil))) (Mul (Sel 15 (Var 3) Nil) (Sel 16 (Var 7) Nil)));
     Store 4 18 Nil (Sel 17 (Var 4) Nil);
     Store 4 19 Nil (Var 8)])
    (block [
     Let 8 (Div (Add (Sel 20 (Var 4) Nil) (Sel 21 (Var 4) Nil)) (Const (2 # 1) none));
     Let 9 (Div (Add (Sel 22 (Var 4) Nil) (Sel 23 (Var 4) Nil)) (Const (2 # 1) none));
     Let 10 (Div (Add (Sel 24 (Var 4) Nil) (Sel 25 (Var 4) Nil)) (Const (2 # 1) none));
     Store 4 26 Nil (Var 9);
     Store 4 27 Nil (Var 10);
     Store 4 28 Nil (Var 8)])]).
(** multisim/precomp_funs.py 3627 *)
Definition f_solve_split : func := mkF "solve_split" 3627
  [("port_array", 1); ("_port_link_idx", 2); ("T", 3)]
  []
  [(1, (mkU 0 0 0 2)); (3, (mkU 0 0 0 2)); (4, (mkU 0 0 0 2))]
  (block [
   Store 3 2 Nil (Sel 1 (Var 1) (Cons (Var 2) Nil));
   Let 4 (Div (Red Sum 4 (Sel 3 (Var 3) Nil)) (Const (2 # 1) none));
   Store 3 6 Nil (Sel 5 (Var 3) Nil);
   Store 3 7 Nil (Var 4)]).
(** multisim/precomp_funs.py 3640 *)
Definition f_solve_pump : func := mkF "solve_pump" 3640
  [("ports_all", 1); ("port_link_idx", 2); ("T", 3); ("res", 4); ("res_dm", 5); ("dm", 6); ("stepnum", 7)]
  []
  [(1, (mkU 0 0 0 2)); (3, (mkU 0 0 0 2)); (4, (mkU 0 0 0 2)); (5, (mkU 0 2 (-2) 0)); (6, (mkU 0 2 (-2) 0)); (8, (mkU 0 0 0 2)); (10, (mkU 0 0 0 2))]
  (block [
   View 8 1 1 Nil;
   View 9 2 2 Nil;
   View 10 3 3 Nil;
   Frame
    (block [
     Store 10 6 Nil (Sel 5 (Var 8) (Cons (Var 9) Nil))]);
   Store 5 8 (Cons (Sel 9 (Var 7) Nil) Nil) (Sel 7 (Var 6) Nil);
   Store 4 10 (Cons (Sel 11 (Var 7) Nil) Nil) (Var 3)]).
(** multisim/precomp_funs.py 3654 *)
Definition f_ctrl_deadtime : func := mkF "ctrl_deadtime" 3654
  [("deadtime", 1); ("timestep", 2); ("dt_arr", 3); ("pv_arr", 4); ("len_dt_arr", 5); ("dt_idx", 6); ("last_dt_idx", 7); ("delayed_pv", 8); ("sp", 9); ("pv", 10)]
  [13; 14; 15; 16]
  [(1, (mkU 0 0 2 0)); (2, (mkU 0 0 2 0)); (3, (mkU 0 0 2 0)); (4, (mkU 0 0 0 2)); (8, (mkU 0 0 0 2)); (9, (mkU 0 0 0 2)); (10, (mkU 0 0 0 2)); (12, (mkU 0 0 0 2)); (13, (mkU 0 0 0 2)); (14, (mkU 0 0 0 2))]
  (block [
   Store 3 1 Nil (Add (Var 3) (Var 2));
   If (Cmp Ne (Var 6) (Neg (Const (1 # 1) none)))
    (block [
     View 7 6 2 Nil])
    (block [
     Let 7 (Add (Var 7) (Const (1 # 1) none))]);
   Let 6 (Neg (Const (1 # 1) none));
   For 11 5 (Cons (Var 5) Nil)
    (block [
     If (Cmp Ge (Sel 3 (Var 3) (Cons (Var 11) Nil)) (Var 1))
      (block [
       View 6 11 4 Nil;
       Break])
      Skip]);
   If (Cmp Eq (Var 6) (Const (0 # 1) none))
    (block [
     Let 8 (Add (Var 8) (Mul (Div (Sub (Sel 6 (Var 4) Nil) (Var 8)) (Var 1)) (Sel 7 (Var 3) Nil)))])
    (block [
     If (Cmp Gt (Var 6) (Const (0 # 1) none))
      (block [
       If (Cmp Eq (Sel 8 (Var 3) (Cons (Var 6) Nil)) (Var 1))
        (block [
         View 8 4 9 (Cons (Var 6) Nil)])
        (block [
         Let 8 (Add (Sel 10 (Var 4) (Cons (Sub (Var 6) (Const (1 # 1) none)) Nil)) (Mul (Div (Sub (Sel 11 (Var 4) (Cons (Var 6) Nil)) (Sel 12 (Var 4) (Cons (Sub (Var 6) (Const (1 # 1) none)) Nil))) (Sub (Sel 13 (Var 3) (Cons (Var 6) Nil)) (Sel 14 (Var 3) (Cons (Sub (Var 6) (Const (1 # 1) none)) Nil)))) (Sub (Var 1) (Sel 15 (Var 3) (Cons (Sub (Var 6) (Const (1 # 1) none)) Nil)))))])])
      (block [
       Let 8 (Add (Var 8) (Mul (Div (Sub (Sel 16 (Var 4) (Cons (Var 7) Nil)) (Var 8)) (Sub (Var 1) (Sub (Sel 17 (Var 3) (Cons (Var 7) Nil)) (Var 2)))) (Var 2)))])]);
   Let 12 (Sub (Sel 18 (Var 9) Nil) (Var 8));
   Store 3 19 (Cons (Var 6) Nil) (Const (0 # 1) (mkU 0 0 2 0));
   Store 3 21 Nil (Sel 20 (Var 3) Nil);
   Store 4 23 Nil (Sel 22 (Var 4) Nil);
   Store 4 25 Nil (Sel 24 (Var 10) Nil);
   Store 3 26 Nil (Const (0 # 1) (mkU 0 0 2 0));
   View 13 12 27 Nil;
   View 14 8 28 Nil;
   View 15 6 29 Nil;
   View 16 7 30 Nil;
   Return]).
(** multisim/precomp_funs.py 3733 *)
Definition f__heun_corrector_adapt : func := mkF "_heun_corrector_adapt" 3733
  [("res", 1); ("T", 2); ("df0", 3); ("df1", 4); ("trnc_err_cell_weight", 5); ("_h", 6); ("stepnum", 7); ("rtol", 8); ("atol", 9); ("err", 10); ("new_trnc_err", 11)]
  [13; 14]
  [(1, (mkU 0 0 0 2)); (2, (mkU 0 0 0 2)); (3, (mkU 0 0 (-2) 2)); (4, (mkU 0 0 (-2) 2)); (6, (mkU 0 0 2 0)); (9, (mkU 0 0 0 2))]
  (block [
   Store 1 2 (Cons (Var 7) Nil) (Add (Sel 1 (Var 1) (Cons (Sub (Var 7) (Const (1 # 1) none)) Nil)) (Mul (Div (Var 6) (Const (2 # 1) none)) (Add (Var 3) (Var 4))));
   Let 12 (Red Sum 6 (Pow (Div (Mul (Sub (Sel 3 (Var 1) (Cons (Var 7) Nil)) (Var 2)) (Var 5)) (Add (Mul (Max (Sel 4 (Var 1) (Cons (Sub (Var 7) (Const (1 # 1) none)) Nil)) (Sel 5 (Var 1) (Cons (Var 7) Nil))) (Var 8)) (Var 9))) 2));
   Store 10 7 Nil (Add (Var 10) (Var 12));
   Let 11 (Fn 9 (Cons (Div (Var 12) (Fn 8 Nil)) Nil));
   Store 2 11 Nil (Sel 10 (Var 1) (Cons (Var 7) Nil));
   View 13 10 12 Nil;
   View 14 11 13 Nil;
   Return]).
(** multisim/precomp_funs.py 3786 *)
Definition f__embedded_adapt_stepsize : func := mkF "_embedded_adapt_stepsize" 3786
  [("err", 1); ("sys_trnc_err", 2); ("num_cells_tot_nmrc", 3); ("step_accepted", 4); ("failed_steps", 5); ("safety", 6); ("order", 7); ("solver_state", 8); ("min_factor", 9); ("max_factor", 10); ("min_stepsize", 11); ("max_stepsize", 12); ("ports_all", 13); ("parr_bkp", 14); ("vN_max_step", 15); ("step_stable", 16); ("cnt_instable", 17); ("timeframe", 18); ("_h", 19); ("timestep", 20); ("stepnum", 21)]
  [23; 24; 25; 26]
  [(11, (mkU 0 0 2 0)); (12, (mkU 0 0 2 0)); (13, (mkU 0 0 0 2)); (14, (mkU 0 0 0 2)); (15, (mkU 0 0 2 0)); (18, (mkU 0 0 2 0)); (19, (mkU 0 0 2 0)); (20, (mkU 0 0 2 0)); (24, (mkU 0 0 2 0)); (25, (mkU 0 0 2 0))]
  (block [
   Let 22 (Fn 1 (Cons (Div (Var 1) (Var 3)) Nil));
   Store 2 2 (Cons (Var 21) Nil) (Var 22);
   If (Cmp Lt (Var 22) (Const (1 # 1) none))
    (block [
     Let 4 (Const (1 # 1) none);
     View 20 19 3 Nil;
     Let 19 (Mul (Var 19) (Min (Sel 4 (Var 10) Nil) (Max (Const (1 # 1) none) (Mul (Var 6) (Fn 5 (Cons (Var 22) (Cons (Div (Neg (Const (1 # 1) none)) (Add (Var 7) (Const (1 # 1) none))) Nil)))))));
     If (Cmp Gt (Var 19) (Var 12))
      (block [
       View 19 12 6 Nil;
       Store 8 7 (Cons (Var 21) Nil) (Const (5 # 1) none)])
      (block [
       Store 8 8 (Cons (Var 21) Nil) (Const (4 # 1) none)])])
    (block [
     If (Cmp Eq (Var 22) (Const (0 # 1) none))
      (block [
       Let 4 (Const (1 # 1) none);
       View 20 19 9 Nil;
       Let 19 (Mul (Var 19) (Sel 10 (Var 10) Nil));
       Store 8 11 (Cons (Var 21) Nil) (Const (7 # 1) none);
       If (Cmp Gt (Var 19) (Var 12))
        (block [
         View 19 12 12 Nil])
        Skip])
      (block [
       If (Cmp Eq (Var 19) (Var 11))
        (block [
         Let 4 (Const (1 # 1) none);
         View 20 19 13 Nil;
         Store 8 14 (Cons (Var 21) Nil) (Const (6 # 1) none)])
        (block [
         Let 19 (Mul (Var 19) (Max (Var 9) (Mul (Var 6) (Fn 15 (Cons (Var 22) (Cons (Div (Neg (Const (1 # 1) none)) (Add (Var 7) (Const (1 # 1) none))) Nil))))));
         If (Cmp Lt (Var 19) (Var 11))
          (block [
           View 19 11 16 Nil])
          Skip;
         Store 13 17 Nil (Var 14);
         Store 5 19 (Cons (Var 21) Nil) (Add (Sel 18 (Var 5) (Cons (Var 21) Nil)) (Const (1 # 1) none))])])]);
   If (Fn 21 (Cons (Sel 20 (Var 16) Nil) Nil))
    (block [
     Let 4 (Const (0 # 1) none);
     Let 17 (Add (Var 17) (Const (1 # 1) none));
     View 19 15 22 Nil;
     Store 5 24 (Cons (Var 21) Nil) (Add (Sel 23 (Var 5) (Cons (Var 21) Nil)) (Const (1 # 1) none));
     Store 13 25 Nil (Var 14);
     If (Cmp Eq (Var 17) (Const (50 # 1) none))
      (block [
       Let 18 (Const (1 # 1000000000) (mkU 0 0 2 0));
       Store 8 26 (Cons (Var 21) Nil) (Const (99 # 1) none)])
      Skip])
    Skip;
   View 23 4 27 Nil;
   View 24 20 28 Nil;
   View 25 18 29 Nil;
   View 26 17 30 Nil;
   Return]).
(** multisim/precomp_funs.py 3906 *)
Definition f_rayleigh_number : func := mkF "rayleigh_number" 3906
  [("T_s", 1); ("T_inf", 2); ("Pr", 3); ("ny", 4); ("Kelvin", 5); ("flow_length", 6)]
  [7]
  [(1, (mkU 0 0 0 2)); (2, (mkU 0 0 0 2)); (4, (mkU 4 0 (-2) 0)); (5, (mkU 0 0 0 2)); (6, (mkU 2 0 0 0))]
  (block [
   Let 7 (Div (Mul (Mul (Mul (Abs (Sub (Var 1) (Var 2))) (Const (981 # 100) (mkU 2 0 (-4) 0))) (Pow (Var 6) 3)) (Var 3)) (Mul (Add (Var 2) (Var 5)) (Pow (Var 4) 2)));
   Return]).
(** multisim/precomp_funs.py 3954 *)
Definition f_get_rho_water : func := mkF "get_rho_water" 3954
  [("T", 1); ("rho", 2)]
  []
  [(1, (mkU 0 0 0 2)); (2, (mkU (-6) 2 0 0))]
  (block [
   Store 2 1 Nil (Sub (Add (Sub (Add (Const (99988785713136213 # 100000000000000) (mkU (-6) 2 0 0)) (Mul (Const (24802227495264801 # 500000000000000000) (mkU (-6) 2 0 (-2))) (Var 1))) (Mul (Const (74722666453460717 # 10000000000000000000) (mkU (-6) 2 0 (-4))) (Pow (Var 1) 2))) (Mul (Const (10273621109538621 # 250000000000000000000) (mkU (-6) 2 0 (-6))) (Pow (Var 1) 3))) (Mul (Const (6457894773161807 # 50000000000000000000000) (mkU (-6) 2 0 (-8))) (Pow (Var 1) 4)))]).
(** multisim/precomp_funs.py 3972 *)
Definition f_rho_water : func := mkF "rho_water" 3972
  [("T", 1)]
  [2]
  [(1, (mkU 0 0 0 2)); (2, (mkU (-6) 2 0 0))]
  (block [
   Let 2 (Sub (Add (Sub (Add (Const (99988785713136213 # 100000000000000) (mkU (-6) 2 0 0)) (Mul (Const (24802227495264801 # 500000000000000000) (mkU (-6) 2 0 (-2))) (Var 1))) (Mul (Const (74722666453460717 # 10000000000000000000) (mkU (-6) 2 0 (-4))) (Pow (Var 1) 2))) (Mul (Const (10273621109538621 # 250000000000000000000) (mkU (-6) 2 0 (-6))) (Pow (Var 1) 3))) (Mul (Const (6457894773161807 # 50000000000000000000000) (mkU (-6) 2 0 (-8))) (Pow (Var 1) 4)));
   Return]).
(** multisim/precomp_funs.py 3987 *)
Definition f_lambda_water : func := mkF "lambda_water" 3987
  [("T", 1)]
  [2]
  [(1, (mkU 0 0 0 2)); (2, (mkU 2 2 (-6) (-2)))]
  (block [
   Let 2 (Sub (Sub (Add (Const (56987912853229539 # 100000000000000000) (mkU 2 2 (-6) (-2))) (Mul (Const (8939185201272869 # 5000000000000000000) (mkU 2 2 (-6) (-4))) (Var 1))) (Mul (Const (11999643454775959 # 2000000000000000000000) (mkU 2 2 (-6) (-6))) (Pow (Var 1) 2))) (Mul (Const (86964577115093407 # 10000000000000000000000000) (mkU 2 2 (-6) (-8))) (Pow (Var 1) 3)));
   Return]).
(** multisim/precomp_funs.py 4001 *)
Definition f_get_lambda_water : func := mkF "get_lambda_water" 4001
  [("T", 1); ("lam", 2)]
  []
  [(1, (mkU 0 0 0 2)); (2, (mkU 2 2 (-6) (-2)))]
  (block [
   Store 2 1 Nil (Sub (Sub (Add (Const (56987912853229539 # 100000000000000000) (mkU 2 2 (-6) (-2))) (Mul (Const (8939185201272869 # 5000000000000000000) (mkU 2 2 (-6) (-4))) (Var 1))) (Mul (Const (11999643454775959 # 2000000000000000000000) (mkU 2 2 (-6) (-6))) (Pow (Var 1) 2))) (Mul (Const (86964577115093407 # 10000000000000000000000000) (mkU 2 2 (-6) (-8))) (Pow (Var 1) 3)))]).
(** multisim/precomp_funs.py 4016 *)
Definition f_get_cp_water : func := mkF "get_cp_water" 4016
  [("T", 1); ("cp", 2)]
  []
  [(1, (mkU 0 0 0 2)); (2, (mkU 4 0 (-4) (-2)))]
  (block [
   Store 2 1 Nil (Add (Sub (Add (Sub (Const (5269252946772499 # 1250000000000) (mkU 4 0 (-4) (-2))) (Mul (Const (7213485820879837 # 2500000000000000) (mkU 4 0 (-4) (-4))) (Var 1))) (Mul (Const (468161292800073 # 6250000000000000) (mkU 4 0 (-4) (-6))) (Pow (Var 1) 2))) (Mul (Const (77807143441700321 # 100000000000000000000) (mkU 4 0 (-4) (-8))) (Pow (Var 1) 3))) (Mul (Const (501708265162663 # 156250000000000000000) (mkU 4 0 (-4) (-10))) (Pow (Var 1) 4)))]).
(** multisim/precomp_funs.py 4034 *)
Definition f_cp_water : func := mkF "cp_water" 4034
  [("T", 1)]
  [2]
  [(1, (mkU 0 0 0 2)); (2, (mkU 4 0 (-4) (-2)))]
  (block [
   Let 2 (Add (Sub (Add (Sub (Const (5269252946772499 # 1250000000000) (mkU 4 0 (-4) (-2))) (Mul (Const (7213485820879837 # 2500000000000000) (mkU 4 0 (-4) (-4))) (Var 1))) (Mul (Const (468161292800073 # 6250000000000000) (mkU 4 0 (-4) (-6))) (Pow (Var 1) 2))) (Mul (Const (77807143441700321 # 100000000000000000000) (mkU 4 0 (-4) (-8))) (Pow (Var 1) 3))) (Mul (Const (501708265162663 # 156250000000000000000) (mkU 4 0 (-4) (-10))) (Pow (Var 1) 4)));
   Return]).
(** multisim/precomp_funs.py 4050 *)
Definition f_get_ny_water : func := mkF "get_ny_water" 4050
  [("T", 1); ("ny", 2)]
  []
  [(1, (mkU 0 0 0 2)); (2, (mkU 4 0 (-2) 0))]
  (block [
   Store 2 1 Nil (Add (Sub (Add (Sub (Const (3552894676098831 # 2000000000000000000000) (mkU 4 0 (-2) 0)) (Mul (Const (13910068945316351 # 250000000000000000000000) (mkU 4 0 (-2) (-2))) (Var 1))) (Mul (Const (5121536443747213 # 5000000000000000000000000) (mkU 4 0 (-2) (-4))) (Pow (Var 1) 2))) (Mul (Const (19590892027396233 # 2000000000000000000000000000) (mkU 4 0 (-2) (-6))) (Pow (Var 1) 3))) (Mul (Const (9115117186265681 # 250000000000000000000000000000) (mkU 4 0 (-2) (-8))) (Pow (Var 1) 4)))]).
(** multisim/precomp_funs.py 4066 *)
Definition f_ny_water : func := mkF "ny_water" 4066
  [("T", 1)]
  [2]
  [(1, (mkU 0 0 0 2)); (2, (mkU 4 0 (-2) 0))]
  (block [
   Let 2 (Add (Sub (Add (Sub (Const (3552894676098831 # 2000000000000000000000) (mkU 4 0 (-2) 0)) (Mul (Const (13910068945316351 # 250000000000000000000000) (mkU 4 0 (-2) (-2))) (Var 1))) (Mul (Const (5121536443747213 # 5000000000000000000000000) (mkU 4 0 (-2) (-4))) (Pow (Var 1) 2))) (Mul (Const (19590892027396233 # 2000000000000000000000000000) (mkU 4 0 (-2) (-6))) (Pow (Var 1) 3))) (Mul (Const (9115117186265681 # 250000000000000000000000000000) (mkU 4 0 (-2) (-8))) (Pow (Var 1) 4)));
   Return]).
(** multisim/precomp_funs.py 4081 *)
Definition f_get_Pr_water : func := mkF "get_Pr_water" 4081
  [("T", 1); ("Pr", 2)]
  []
  [(1, (mkU 0 0 0 2))]
  (block [
   Store 2 1 Nil (Sub (Add (Sub (Const (62890054099689529 # 5000000000000000) none) (Mul (Const (8781170142941877 # 25000000000000000) (mkU 0 0 0 (-2))) (Var 1))) (Mul (Const (8645096088941217 # 2000000000000000000) (mkU 0 0 0 (-4))) (Pow (Var 1) 2))) (Mul (Const (9587096961594449 # 500000000000000000000) (mkU 0 0 0 (-6))) (Pow (Var 1) 3)))]).
(** multisim/precomp_funs.py 4100 *)
Definition f_Pr_water_return : func := mkF "Pr_water_return" 4100
  [("T", 1)]
  [2]
  [(1, (mkU 0 0 0 2))]
  (block [
   Let 2 (Sub (Add (Sub (Const (62890054099689529 # 5000000000000000) none) (Mul (Const (8781170142941877 # 25000000000000000) (mkU 0 0 0 (-2))) (Var 1))) (Mul (Const (8645096088941217 # 2000000000000000000) (mkU 0 0 0 (-4))) (Pow (Var 1) 2))) (Mul (Const (9587096961594449 # 500000000000000000000) (mkU 0 0 0 (-6))) (Pow (Var 1) 3)));
   Return]).
(** multisim/precomp_funs.py 4118 *)
Definition f_get_beta_water : func := mkF "get_beta_water" 4118
  [("T", 1); ("beta", 2)]
  []
  [(1, (mkU 0 0 0 2)); (2, (mkU 0 0 0 (-2)))]
  (block [
   Store 2 1 Nil (Add (Sub (Add (Neg (Const (293992682383333 # 5000000000000000000) (mkU 0 0 0 (-2)))) (Mul (Const (15641955219950547 # 1000000000000000000000) (mkU 0 0 0 (-4))) (Var 1))) (Mul (Const (13587684743777981 # 100000000000000000000000) (mkU 0 0 0 (-6))) (Pow (Var 1) 2))) (Mul (Const (30610251654074543 # 50000000000000000000000000) (mkU 0 0 0 (-8))) (Pow (Var 1) 3)))]).
(** multisim/precomp_funs.py 4133 *)
Definition f_beta_water_return : func := mkF "beta_water_return" 4133
  [("T", 1)]
  [2]
  [(1, (mkU 0 0 0 2)); (2, (mkU 0 0 0 (-2)))]
  (block [
   Let 2 (Add (Sub (Add (Neg (Const (293992682383333 # 5000000000000000000) (mkU 0 0 0 (-2)))) (Mul (Const (15641955219950547 # 1000000000000000000000) (mkU 0 0 0 (-4))) (Var 1))) (Mul (Const (13587684743777981 # 100000000000000000000000) (mkU 0 0 0 (-6))) (Pow (Var 1) 2))) (Mul (Const (30610251654074543 # 50000000000000000000000000) (mkU 0 0 0 (-8))) (Pow (Var 1) 3)));
   Return]).
(** multisim/precomp_funs.py 4147 *)
Definition f_get_Re_water : func := mkF "get_Re_water" 4147
  [("v", 1); ("L", 2); ("ny", 3); ("Re", 4)]
  []
  [(1, (mkU 2 0 (-2) 0)); (2, (mkU 2 0 0 0)); (3, (mkU 4 0 (-2) 0))]
  (block [
   Store 4 1 Nil (Div (Mul (Abs (Var 1)) (Var 2)) (Var 3))]).
(** multisim/precomp_funs.py 4153 *)
Definition f_Re_water_return : func := mkF "Re_water_return" 4153
  [("v", 1); ("L", 2); ("ny", 3)]
  [4]
  [(1, (mkU 2 0 (-2) 0)); (2, (mkU 2 0 0 0)); (3, (mkU 4 0 (-2) 0))]
  (block [
   Let 4 (Div (Mul (Abs (Var 1)) (Var 2)) (Var 3));
   Return]).
(** multisim/precomp_funs.py 4160 *)
Definition f_get_rho_dryair : func := mkF "get_rho_dryair" 4160
  [("T", 1); ("rho", 2)]
  []
  [(1, (mkU 0 0 0 2)); (2, (mkU (-6) 2 0 0))]
  (block [
   Store 2 1 Nil (Add (Sub (Const (3191996753246753 # 2500000000000000) (mkU (-6) 2 0 0)) (Mul (Const (46968614718614701 # 10000000000000000000) (mkU (-6) 2 0 (-2))) (Var 1))) (Mul (Const (223383387445879 # 15625000000000000000) (mkU (-6) 2 0 (-4))) (Pow (Var 1) 2)))]).
(** multisim/precomp_funs.py 4171 *)
Definition f_get_lam_dryair : func := mkF "get_lam_dryair" 4171
  [("T", 1); ("lam", 2)]
  []
  [(1, (mkU 0 0 0 2)); (2, (mkU 2 2 (-6) (-2)))]
  (block [
   Store 2 1 Nil (Sub (Add (Const (24358670995670989 # 1000000000000000000) (mkU 2 2 (-6) (-2))) (Mul (Const (76533982683982561 # 1000000000000000000000) (mkU 2 2 (-6) (-4))) (Var 1))) (Mul (Const (42099567099572201 # 1000000000000000000000000) (mkU 2 2 (-6) (-6))) (Pow (Var 1) 2)))]).
(** multisim/precomp_funs.py 4182 *)
Definition f_lam_dryair_return : func := mkF "lam_dryair_return" 4182
  [("T", 1)]
  [2]
  [(1, (mkU 0 0 0 2)); (2, (mkU 2 2 (-6) (-2)))]
  (block [
   Let 2 (Sub (Add (Const (24358670995670989 # 1000000000000000000) (mkU 2 2 (-6) (-2))) (Mul (Const (76533982683982561 # 1000000000000000000000) (mkU 2 2 (-6) (-4))) (Var 1))) (Mul (Const (42099567099572201 # 1000000000000000000000000) (mkU 2 2 (-6) (-6))) (Pow (Var 1) 2)));
   Return]).
(** multisim/precomp_funs.py 4193 *)
Definition f_get_ny_dryair : func := mkF "get_ny_dryair" 4193
  [("T", 1); ("ny", 2)]
  []
  [(1, (mkU 0 0 0 2)); (2, (mkU 4 0 (-2) 0))]
  (block [
   Store 2 1 Nil (Add (Add (Const (13500069264069257 # 1000000000000000000000) (mkU 4 0 (-2) 0)) (Mul (Const (88810389610389459 # 1000000000000000000000000) (mkU 4 0 (-2) (-2))) (Var 1))) (Mul (Const (10974025974025443 # 100000000000000000000000000) (mkU 4 0 (-2) (-4))) (Pow (Var 1) 2)))]).
(** multisim/precomp_funs.py 4204 *)
Definition f_ny_dryair_return : func := mkF "ny_dryair_return" 4204
  [("T", 1)]
  [2]
  [(1, (mkU 0 0 0 2)); (2, (mkU 4 0 (-2) 0))]
  (block [
   Let 2 (Add (Add (Const (13500069264069257 # 1000000000000000000000) (mkU 4 0 (-2) 0)) (Mul (Const (88810389610389459 # 1000000000000000000000000) (mkU 4 0 (-2) (-2))) (Var 1))) (Mul (Const (10974025974025443 # 100000000000000000000000000) (mkU 4 0 (-2) (-4))) (Pow (Var 1) 2)));
   Return]).
(** multisim/precomp_funs.py 4216 *)
Definition f_humid_air_saturation_pressure : func := mkF "humid_air_saturation_pressure" 4216
  [("T", 1)]
  [2]
  [(1, (mkU 0 0 0 2)); (2, (mkU (-2) 2 (-4) 0))]
  (block [
   Let 2 (Add (Add (Add (Add (Add (Add (Mul (Const (156927617 # 100000000000000000) (mkU (-2) 2 (-4) (-12))) (Pow (Var 1) 6)) (Mul (Const (232760367 # 100000000000000) (mkU (-2) 2 (-4) (-10))) (Pow (Var 1) 5))) (Mul (Const (12761137 # 40000000000) (mkU (-2) 2 (-4) (-8))) (Pow (Var 1) 4))) (Mul (Const (31478073 # 1250000000) (mkU (-2) 2 (-4) (-6))) (Pow (Var 1) 3))) (Mul (Const (142489091 # 100000000) (mkU (-2) 2 (-4) (-4))) (Pow (Var 1) 2))) (Mul (Const (5690973 # 125000) (mkU (-2) 2 (-4) (-2))) (Pow (Var 1) 1))) (Const (18742821 # 31250) (mkU (-2) 2 (-4) 0)));
   Return]).
(** multisim/precomp_funs.py 4239 *)
Definition f_humid_air_sat_water_mass : func := mkF "humid_air_sat_water_mass" 4239
  [("T", 1)]
  [2]
  [(1, (mkU 0 0 0 2))]
  (block [
   Let 2 (Add (Add (Add (Add (Add (Add (Sub (Add (Add (Sub (Mul (Const (86872797 # 250000000000000000000000000) (mkU 0 0 0 (-20))) (Pow (Var 1) 10)) (Mul (Const (650956001 # 10000000000000000000000000) (mkU 0 0 0 (-18))) (Pow (Var 1) 9))) (Mul (Const (368271647 # 100000000000000000000000) (mkU 0 0 0 (-16))) (Pow (Var 1) 8))) (Mul (Const (206252891 # 10000000000000000000000) (mkU 0 0 0 (-14))) (Pow (Var 1) 7))) (Mul (Const (711474217 # 100000000000000000000) (mkU 0 0 0 (-12))) (Pow (Var 1) 6))) (Mul (Const (3226323 # 25000000000000000) (mkU 0 0 0 (-10))) (Pow (Var 1) 5))) (Mul (Const (132551101 # 20000000000000000) (mkU 0 0 0 (-8))) (Pow (Var 1) 4))) (Mul (Const (879652019 # 10000000000000000) (mkU 0 0 0 (-6))) (Pow (Var 1) 3))) (Mul (Const (204008637 # 25000000000000) (mkU 0 0 0 (-4))) (Pow (Var 1) 2))) (Mul (Const (298380899 # 1000000000000) (mkU 0 0 0 (-2))) (Var 1))) (Const (75882793 # 20000000000) none));
   Return]).
(** multisim/precomp_funs.py 4334 *)
Definition f_pipe_get_Re : func := mkF "pipe_get_Re" 4334
  [("dm", 1); ("rho", 2); ("ny", 3); ("A", 4); ("d_i", 5); ("Re", 6)]
  []
  [(1, (mkU 0 2 (-2) 0)); (2, (mkU (-6) 2 0 0)); (3, (mkU 4 0 (-2) 0)); (4, (mkU 4 0 0 0)); (5, (mkU 2 0 0 0)); (7, (mkU 2 0 (-2) 0)); (8, (mkU 2 0 0 0)); (9, (mkU 4 0 (-2) 0))]
  (block [
   Let 7 (Div (Var 1) (Mul (Var 2) (Var 4)));
   View 8 5 1 Nil;
   View 9 3 2 Nil;
   View 10 6 3 Nil;
   Frame
    (block [
     Store 10 4 Nil (Div (Mul (Abs (Var 7)) (Var 8)) (Var 9))])]).
(** multisim/precomp_funs.py 4340 *)
Definition f_pipe_get_Re2 : func := mkF "pipe_get_Re2" 4340
  [("dm", 1); ("rho", 2); ("ny", 3); ("A", 4); ("d_i", 5); ("Re", 6)]
  []
  [(1, (mkU 0 2 (-2) 0)); (2, (mkU (-6) 2 0 0)); (3, (mkU 4 0 (-2) 0)); (4, (mkU 4 0 0 0)); (5, (mkU 2 0 0 0))]
  (block [
   Store 6 1 Nil (Div (Mul (Var 1) (Var 5)) (Mul (Mul (Var 2) (Var 4)) (Var 3)))]).
(** multisim/precomp_funs.py 4345 *)
Definition f_pipe_alpha_i : func := mkF "pipe_alpha_i" 4345
  [("dm", 1); ("T", 2); ("rho", 3); ("ny", 4); ("lam_fld", 5); ("A", 6); ("d_i", 7); ("x", 8); ("alpha", 9)]
  []
  [(1, (mkU 0 2 (-2) 0)); (2, (mkU 0 0 0 2)); (3, (mkU (-6) 2 0 0)); (4, (mkU 4 0 (-2) 0)); (5, (mkU 2 2 (-6) (-2))); (6, (mkU 4 0 0 0)); (7, (mkU 2 0 0 0)); (8, (mkU 2 0 0 0)); (9, (mkU 0 2 (-6) (-2))); (14, (mkU 2 0 (-2) 0)); (15, (mkU 2 0 0 0)); (16, (mkU 4 0 (-2) 0)); (18, (mkU 0 0 0 2)); (21, (mkU 2 0 0 0))]
  (block [
   Let 10 (Fn 1 Nil);
   Let 11 (Const (0 # 1) none);
   Let 12 (Const (0 # 1) none);
   Let 13 (Const (0 # 1) none);
   Let 14 (Div (Var 1) (Mul (Var 3) (Var 6)));
   View 15 7 3 Nil;
   View 16 4 4 Nil;
   View 17 11 5 Nil;
   Frame
    (block [
     Store 17 6 Nil (Div (Mul (Abs (Var 14)) (Var 15)) (Var 16))]);
   View 18 2 7 Nil;
   View 19 12 8 Nil;
   Frame
    (block [
     Store 19 9 Nil (Sub (Add (Sub (Const (62890054099689529 # 5000000000000000) none) (Mul (Const (8781170142941877 # 25000000000000000) (mkU 0 0 0 (-2))) (Var 18))) (Mul (Const (8645096088941217 # 2000000000000000000) (mkU 0 0 0 (-4))) (Pow (Var 18) 2))) (Mul (Const (9587096961594449 # 500000000000000000000) (mkU 0 0 0 (-6))) (Pow (Var 18) 3)))]);
   Let 20 (Mul (Var 11) (Var 12));
   If (Cmp Lt (Sel 10 (Var 1) Nil) (Const (0 # 1) (mkU 0 2 (-2) 0)))
    (block [
     View 21 8 11 Nil])
    (block [
     View 21 8 12 Nil]);
   Let 22 (Cmp Gt (Var 11) (Const (2300 # 1) none));
   Store 13 19 (Cons (Fn 20 (Cons (Var 22) Nil)) Nil) (Fn 18 (Cons (Add (Const (49371 # 1000) none) (Pow (Sub (Mul (Const (1077 # 1000) none) (Fn 17 (Cons (Div (Mul (Sel 13 (Var 20) (Cons (Fn 14 (Cons (Var 22) Nil)) Nil)) (Var 7)) (Sel 15 (Var 21) (Cons (Fn 16 (Cons (Var 22) Nil)) Nil))) Nil))) (Const (7 # 10) none)) 3)) Nil));
   Let 23 (Pow (Sub (Mul (Const (9 # 5) none) (Fn 22 (Cons (Sel 21 (Var 11) (Cons (Var 22) Nil)) Nil))) (Const (3 # 2) none)) (-2));
   Store 13 29 (Cons (Var 22) Nil) (Mul (Div (Mul (Div (Var 23) (Const (8 # 1) none)) (Sel 23 (Var 20) (Cons (Var 22) Nil))) (Add (Const (1 # 1) none) (Mul (Mul (Const (127 # 10) none) (Sub (Fn 25 (Cons (Sel 24 (Var 12) (Cons (Var 22) Nil)) Nil)) (Const (1 # 1) none))) (Fn 26 (Cons (Div (Var 23) (Const (8 # 1) none)) Nil))))) (Add (Const (1 # 1) none) (Div (Fn 28 (Cons (Div (Var 7) (Sel 27 (Var 21) (Cons (Var 22) Nil))) Nil)) (Const (3 # 1) none))));
   Store 9 30 Nil (Div (Mul (Var 13) (Var 5)) (Var 7))]).
(** multisim/precomp_funs.py 4429 *)
Definition f_pipe_alpha_i_wll_sep : func := mkF "pipe_alpha_i_wll_sep" 4429
  [("dm", 1); ("T", 2); ("rho", 3); ("ny", 4); ("lam_fld", 5); ("A", 6); ("d_i", 7); ("x", 8); ("alpha", 9)]
  []
  [(1, (mkU 0 2 (-2) 0)); (2, (mkU 0 0 0 2)); (3, (mkU (-6) 2 0 0)); (4, (mkU 4 0 (-2) 0)); (5, (mkU 2 2 (-6) (-2))); (6, (mkU 4 0 0 0)); (7, (mkU 2 0 0 0)); (8, (mkU 2 0 0 0)); (9, (mkU 0 2 (-6) (-2))); (14, (mkU 2 0 (-2) 0)); (15, (mkU 2 0 0 0)); (16, (mkU 4 0 (-2) 0)); (18, (mkU 0 0 0 2)); (23, (mkU 2 0 0 0))]
  (block [
   Let 10 (Fn 1 Nil);
   Let 11 (Const (0 # 1) none);
   Let 12 (Const (0 # 1) none);
   Let 13 (Const (0 # 1) none);
   Let 14 (Div (Var 1) (Mul (Var 3) (Var 6)));
   View 15 7 3 Nil;
   View 16 4 4 Nil;
   View 17 11 5 Nil;
   Frame
    (block [
     Store 17 6 Nil (Div (Mul (Abs (Var 14)) (Var 15)) (Var 16))]);
   View 18 2 7 Nil;
   View 19 12 8 Nil;
   Frame
    (block [
     Store 19 9 Nil (Sub (Add (Sub (Const (62890054099689529 # 5000000000000000) none) (Mul (Const (8781170142941877 # 25000000000000000) (mkU 0 0 0 (-2))) (Var 18))) (Mul (Const (8645096088941217 # 2000000000000000000) (mkU 0 0 0 (-4))) (Pow (Var 18) 2))) (Mul (Const (9587096961594449 # 500000000000000000000) (mkU 0 0 0 (-6))) (Pow (Var 18) 3)))]);
   Let 20 (Fn 12 (Cons (Div (Sel 10 (Var 12) Nil) (Sel 11 (Var 12) Nil)) Nil));
   View 21 12 13 Nil;
   Let 22 (Mul (Var 11) (Var 21));
   If (Cmp Lt (Sel 14 (Var 1) Nil) (Const (0 # 1) (mkU 0 2 (-2) 0)))
    (block [
     View 23 8 15 Nil])
    (block [
     View 23 8 16 Nil]);
   Let 24 (Cmp Gt (Var 11) (Const (2300 # 1) none));
   Store 13 23 (Cons (Fn 24 (Cons (Var 24) Nil)) Nil) (Fn 22 (Cons (Add (Const (49371 # 1000) none) (Pow (Sub (Mul (Const (1077 # 1000) none) (Fn 21 (Cons (Div (Mul (Sel 17 (Var 22) (Cons (Fn 18 (Cons (Var 24) Nil)) Nil)) (Var 7)) (Sel 19 (Var 23) (Cons (Fn 20 (Cons (Var 24) Nil)) Nil))) Nil))) (Const (7 # 10) none)) 3)) Nil));
   Let 25 (Pow (Sub (Mul (Const (9 # 5) none) (Fn 26 (Cons (Sel 25 (Var 11) (Cons (Var 24) Nil)) Nil))) (Const (3 # 2) none)) (-2));
   Store 13 33 (Cons (Var 24) Nil) (Mul (Div (Mul (Div (Var 25) (Const (8 # 1) none)) (Sel 27 (Var 22) (Cons (Var 24) Nil))) (Add (Const (1 # 1) none) (Mul (Mul (Const (127 # 10) none) (Sub (Fn 29 (Cons (Sel 28 (Var 21) (Cons (Var 24) Nil)) Nil)) (Const (1 # 1) none))) (Fn 30 (Cons (Div (Var 25) (Const (8 # 1) none)) Nil))))) (Add (Const (1 # 1) none) (Div (Fn 32 (Cons (Div (Var 7) (Sel 31 (Var 23) (Cons (Var 24) Nil))) Nil)) (Const (3 # 1) none))));
   Store 9 34 Nil (Div (Mul (Mul (Var 13) (Var 20)) (Var 5)) (Var 7))]).
(** multisim/precomp_funs.py 4516 *)
Definition f_phex_alpha_i_wll_sep : func := mkF "phex_alpha_i_wll_sep" 4516
  [("dm", 1); ("T_fld", 2); ("T_wll", 3); ("rho", 4); ("ny", 5); ("lam_fld", 6); ("A", 7); ("d_h", 8); ("x", 9); ("corr_Re", 10); ("alpha", 11)]
  []
  [(1, (mkU 0 2 (-2) 0)); (2, (mkU 0 0 0 2)); (3, (mkU 0 0 0 2)); (4, (mkU (-6) 2 0 0)); (5, (mkU 4 0 (-2) 0)); (6, (mkU 2 2 (-6) (-2))); (7, (mkU 4 0 0 0)); (8, (mkU 2 0 0 0)); (9, (mkU 2 0 0 0)); (11, (mkU 0 2 (-6) (-2))); (15, (mkU 2 0 (-2) 0)); (16, (mkU 2 0 0 0)); (17, (mkU 4 0 (-2) 0)); (19, (mkU 0 0 0 2)); (22, (mkU 0 0 0 2))]
  (block [
   Let 12 (Fn 1 Nil);
   Let 13 (Const (0 # 1) none);
   Let 14 (Const (0 # 1) none);
   Let 15 (Div (Var 1) (Mul (Var 4) (Var 7)));
   View 16 8 2 Nil;
   View 17 5 3 Nil;
   View 18 13 4 Nil;
   Frame
    (block [
     Store 18 5 Nil (Div (Mul (Abs (Var 15)) (Var 16)) (Var 17))]);
   View 19 2 6 Nil;
   Frame
    (block [
     Let 20 (Sub (Add (Sub (Const (62890054099689529 # 5000000000000000) none) (Mul (Const (8781170142941877 # 25000000000000000) (mkU 0 0 0 (-2))) (Var 19))) (Mul (Const (8645096088941217 # 2000000000000000000) (mkU 0 0 0 (-4))) (Pow (Var 19) 2))) (Mul (Const (9587096961594449 # 500000000000000000000) (mkU 0 0 0 (-6))) (Pow (Var 19) 3)));
     Return]);
   View 21 20 7 Nil;
   View 22 3 8 Nil;
   Frame
    (block [
     Let 23 (Sub (Add (Sub (Const (62890054099689529 # 5000000000000000) none) (Mul (Const (8781170142941877 # 25000000000000000) (mkU 0 0 0 (-2))) (Var 22))) (Mul (Const (8645096088941217 # 2000000000000000000) (mkU 0 0 0 (-4))) (Pow (Var 22) 2))) (Mul (Const (9587096961594449 # 500000000000000000000) (mkU 0 0 0 (-6))) (Pow (Var 22) 3)));
     Return]);
   View 24 23 9 Nil;
   Store 13 10 Nil (Add (Var 13) (Var 10));
   Let 25 (Fn 11 (Cons (Div (Var 21) (Var 24)) Nil));
   Let 26 (Mul (Var 13) (Var 21));
   Let 27 (Cmp Gt (Var 13) (Const (2300 # 1) none));
   Let 28 (Div (Mul (Sel 12 (Var 26) (Cons (Fn 13 (Cons (Var 27) Nil)) Nil)) (Var 8)) (Var 9));
   Store 14 18 (Cons (Fn 19 (Cons (Var 27) Nil)) Nil) (Fn 17 (Cons (Add (Add (Const (49371 # 1000) none) (Pow (Sub (Mul (Const (323 # 200) none) (Fn 14 (Cons (Var 28) Nil))) (Const (7 # 10) none)) 3)) (Pow (Mul (Fn 15 (Cons (Div (Const (2 # 1) none) (Add (Const (1 # 1) none) (Mul (Const (22 # 1) none) (Var 21)))) Nil)) (Fn 16 (Cons (Var 28) Nil))) 3)) Nil));
   Let 29 (Pow (Sub (Mul (Const (9 # 5) none) (Fn 21 (Cons (Sel 20 (Var 13) (Cons (Var 27) Nil)) Nil))) (Const (3 # 2) none)) (-2));
   Store 14 26 (Cons (Var 27) Nil) (Mul (Div (Mul (Div (Var 29) (Const (8 # 1) none)) (Sel 22 (Var 26) (Cons (Var 27) Nil))) (Add (Const (1 # 1) none) (Mul (Mul (Const (127 # 10) none) (Sub (Fn 23 (Cons (Var 21) Nil)) (Const (1 # 1) none))) (Fn 24 (Cons (Div (Var 29) (Const (8 # 1) none)) Nil))))) (Add (Const (1 # 1) none) (Fn 25 (Cons (Div (Var 8) (Var 9)) Nil))));
   Store 11 27 Nil (Div (Mul (Mul (Var 14) (Var 25)) (Var 6)) (Var 8))]).
(** multisim/precomp_funs.py 4601 *)
Definition f_phex_alpha_i_wll_sep_discretized : func := mkF "phex_alpha_i_wll_sep_discretized" 4601
  [("dm", 1); ("T_fld", 2); ("T_wll", 3); ("rho", 4); ("ny", 5); ("lam_fld", 6); ("A", 7); ("d_h", 8); ("x", 9); ("corr_Re", 10); ("alpha", 11)]
  []
  [(1, (mkU 0 2 (-2) 0)); (2, (mkU 0 0 0 2)); (3, (mkU 0 0 0 2)); (4, (mkU (-6) 2 0 0)); (5, (mkU 4 0 (-2) 0)); (6, (mkU 2 2 (-6) (-2))); (7, (mkU 4 0 0 0)); (8, (mkU 2 0 0 0)); (9, (mkU 2 0 0 0)); (11, (mkU 0 2 (-6) (-2))); (15, (mkU 2 0 (-2) 0)); (16, (mkU 2 0 0 0)); (17, (mkU 4 0 (-2) 0)); (19, (mkU 0 0 0 2)); (22, (mkU 0 0 0 2))]
  (block [
   Let 12 (Fn 1 Nil);
   Let 13 (Const (0 # 1) none);
   Let 14 (Const (0 # 1) none);
   Let 15 (Div (Var 1) (Mul (Var 4) (Var 7)));
   View 16 8 2 Nil;
   View 17 5 3 Nil;
   View 18 13 4 Nil;
   Frame
    (block [
     Store 18 5 Nil (Div (Mul (Abs (Var 15)) (Var 16)) (Var 17))]);
   View 19 2 6 Nil;
   Frame
    (block [
     Let 20 (Sub (Add (Sub (Const (62890054099689529 # 5000000000000000) none) (Mul (Const (8781170142941877 # 25000000000000000) (mkU 0 0 0 (-2))) (Var 19))) (Mul (Const (8645096088941217 # 2000000000000000000) (mkU 0 0 0 (-4))) (Pow (Var 19) 2))) (Mul (Const (9587096961594449 # 500000000000000000000) (mkU 0 0 0 (-6))) (Pow (Var 19) 3)));
     Return]);
   View 21 20 7 Nil;
   View 22 3 8 Nil;
   Frame
    (block [
     Let 23 (Sub (Add (Sub (Const (62890054099689529 # 5000000000000000) none) (Mul (Const (8781170142941877 # 25000000000000000) (mkU 0 0 0 (-2))) (Var 22))) (Mul (Const (8645096088941217 # 2000000000000000000) (mkU 0 0 0 (-4))) (Pow (Var 22) 2))) (Mul (Const (9587096961594449 # 500000000000000000000) (mkU 0 0 0 (-6))) (Pow (Var 22) 3)));
     Return]);
   View 24 23 9 Nil;
   Store 13 10 Nil (Add (Var 13) (Var 10));
   Let 25 (Fn 11 (Cons (Div (Var 21) (Var 24)) Nil));
   Let 26 (Mul (Var 13) (Var 21));
   Let 27 (Cmp Gt (Var 13) (Const (2300 # 1) none));
   Let 28 (Div (Mul (Sel 12 (Var 26) (Cons (Fn 13 (Cons (Var 27) Nil)) Nil)) (Var 8)) (Sel 14 (Var 9) (Cons (Fn 15 (Cons (Var 27) Nil)) Nil)));
   Store 14 22 (Cons (Fn 23 (Cons (Var 27) Nil)) Nil) (Fn 21 (Cons (Add (Add (Const (49371 # 1000) none) (Pow (Sub (Mul (Const (323 # 200) none) (Fn 16 (Cons (Var 28) Nil))) (Const (7 # 10) none)) 3)) (Pow (Mul (Fn 19 (Cons (Div (Const (2 # 1) none) (Add (Const (1 # 1) none) (Mul (Const (22 # 1) none) (Sel 17 (Var 21) (Cons (Fn 18 (Cons (Var 27) Nil)) Nil))))) Nil)) (Fn 20 (Cons (Var 28) Nil))) 3)) Nil));
   Let 29 (Pow (Sub (Mul (Const (9 # 5) none) (Fn 25 (Cons (Sel 24 (Var 13) (Cons (Var 27) Nil)) Nil))) (Const (3 # 2) none)) (-2));
   Store 14 32 (Cons (Var 27) Nil) (Mul (Div (Mul (Div (Var 29) (Const (8 # 1) none)) (Sel 26 (Var 26) (Cons (Var 27) Nil))) (Add (Const (1 # 1) none) (Mul (Mul (Const (127 # 10) none) (Sub (Fn 28 (Cons (Sel 27 (Var 21) (Cons (Var 27) Nil)) Nil)) (Const (1 # 1) none))) (Fn 29 (Cons (Div (Var 29) (Const (8 # 1) none)) Nil))))) (Add (Const (1 # 1) none) (Fn 31 (Cons (Div (Var 8) (Sel 30 (Var 9) (Cons (Var 27) Nil))) Nil))));
   Store 11 33 Nil (Div (Mul (Mul (Var 14) (Var 25)) (Var 6)) (Var 8))]).
(** multisim/precomp_funs.py 4687 *)
Definition f_cylinder_alpha_inf : func := mkF "cylinder_alpha_inf" 4687
  [("T_s", 1); ("T_inf", 2); ("flow_length", 3); ("vertical", 4); ("r_total", 5); ("alpha_inf", 6)]
  []
  [(1, (mkU 0 0 0 2)); (2, (mkU 0 0 0 2)); (3, (mkU 2 0 0 0)); (5, (mkU 2 0 0 0)); (6, (mkU 0 2 (-6) (-2))); (7, (mkU 0 0 0 2)); (9, (mkU 0 0 0 2)); (10, (mkU 4 0 (-2) 0)); (11, (mkU 2 2 (-6) (-2))); (12, (mkU 0 0 0 2)); (13, (mkU 4 0 (-2) 0)); (14, (mkU 0 0 0 2)); (15, (mkU 2 2 (-6) (-2)))]
  (block [
   Let 7 (Const (5463 # 20) (mkU 0 0 0 2));
   Let 8 (Const (177 # 250) none);
   Let 9 (Div (Add (Var 2) (Var 1)) (Const (2 # 1) none));
   Let 10 (Const (0 # 1) (mkU 4 0 (-2) 0));
   Let 11 (Const (0 # 1) (mkU 2 2 (-6) (-2)));
   View 12 9 3 Nil;
   View 13 10 4 Nil;
   Frame
    (block [
     Store 13 5 Nil (Add (Add (Const (13500069264069257 # 1000000000000000000000) (mkU 4 0 (-2) 0)) (Mul (Const (88810389610389459 # 1000000000000000000000000) (mkU 4 0 (-2) (-2))) (Var 12))) (Mul (Const (10974025974025443 # 100000000000000000000000000) (mkU 4 0 (-2) (-4))) (Pow (Var 12) 2)))]);
   View 14 9 6 Nil;
   View 15 11 7 Nil;
   Frame
    (block [
     Store 15 8 Nil (Sub (Add (Const (24358670995670989 # 1000000000000000000) (mkU 2 2 (-6) (-2))) (Mul (Const (76533982683982561 # 1000000000000000000000) (mkU 2 2 (-6) (-4))) (Var 14))) (Mul (Const (42099567099572201 # 1000000000000000000000000) (mkU 2 2 (-6) (-6))) (Pow (Var 14) 2)))]);
   Let 16 (Div (Mul (Mul (Mul (Abs (Sub (Var 1) (Var 2))) (Const (981 # 100) (mkU 2 0 (-4) 0))) (Pow (Var 3) 3)) (Var 8)) (Mul (Add (Var 2) (Var 7)) (Pow (Var 10) 2)));
   If (Var 4)
    (block [
     Let 17 (Const (3466023585520853 # 10000000000000000) none);
     Let 18 (Add (Pow (Add (Const (33 # 40) none) (Mul (Const (387 # 1000) none) (Fn 9 (Cons (Mul (Var 16) (Var 17)) Nil)))) 2) (Div (Mul (Const (87 # 200) none) (Var 3)) (Mul (Const (2 # 1) none) (Var 5))))])
    (block [
     Let 17 (Const (3269207911296459 # 10000000000000000) none);
     Let 18 (Pow (Add (Const (94 # 125) none) (Mul (Const (387 # 1000) none) (Fn 10 (Cons (Mul (Var 16) (Var 17)) Nil)))) 2)]);
   Store 6 11 Nil (Div (Mul (Var 18) (Var 11)) (Var 3))]).
(** multisim/precomp_funs.py 4761 *)
Definition f_plane_alpha_inf : func := mkF "plane_alpha_inf" 4761
  [("T_s", 1); ("T_inf", 2); ("flow_length", 3); ("vertical", 4); ("top", 5)]
  [6]
  [(1, (mkU 0 0 0 2)); (2, (mkU 0 0 0 2)); (3, (mkU 2 0 0 0)); (6, (mkU 0 2 (-6) (-2))); (7, (mkU 0 0 0 2)); (8, (mkU 0 0 0 2)); (9, (mkU 2 0 0 0)); (10, (mkU 0 0 0 2)); (12, (mkU 0 0 0 2)); (13, (mkU 4 0 (-2) 0)); (14, (mkU 2 2 (-6) (-2))); (15, (mkU 0 0 0 2)); (16, (mkU 4 0 (-2) 0)); (17, (mkU 0 0 0 2)); (18, (mkU 2 2 (-6) (-2))); (20, (mkU 0 0 0 2)); (21, (mkU 0 0 0 2)); (23, (mkU 4 0 (-2) 0)); (24, (mkU 0 0 0 2)); (25, (mkU 2 0 0 0)); (28, (mkU 0 2 (-6) (-2))); (29, (mkU 0 0 0 2)); (30, (mkU 0 0 0 2)); (31, (mkU 2 0 0 0)); (33, (mkU 0 0 0 2)); (35, (mkU 0 0 0 2)); (36, (mkU 0 0 0 2)); (37, (mkU 4 0 (-2) 0)); (38, (mkU 4 0 (-2) 0)); (39, (mkU 0 0 0 2)); (40, (mkU 2 2 (-6) (-2))); (41, (mkU 2 2 (-6) (-2))); (43, (mkU 0 0 0 2)); (44, (mkU 0 0 0 2)); (46, (mkU 4 0 (-2) 0)); (47, (mkU 0 0 0 2)); (48, (mkU 2 0 0 0)); (54, (mkU 0 2 (-6) (-2)))]
  (block [
   If (Var 4)
    (block [
     View 7 1 1 Nil;
     View 8 2 2 Nil;
     View 9 3 3 Nil;
     Frame
      (block [
       Let 10 (Const (5463 # 20) (mkU 0 0 0 2));
       Let 11 (Const (177 # 250) none);
       Let 12 (Div (Add (Var 8) (Var 7)) (Const (2 # 1) none));
       Let 13 (Const (0 # 1) (mkU 4 0 (-2) 0));
       Let 14 (Const (0 # 1) (mkU 2 2 (-6) (-2)));
       View 15 12 6 Nil;
       View 16 13 7 Nil;
       Frame
        (block [
         Store 16 8 Nil (Add (Add (Const (13500069264069257 # 1000000000000000000000) (mkU 4 0 (-2) 0)) (Mul (Const (88810389610389459 # 1000000000000000000000000) (mkU 4 0 (-2) (-2))) (Var 15))) (Mul (Const (10974025974025443 # 100000000000000000000000000) (mkU 4 0 (-2) (-4))) (Pow (Var 15) 2)))]);
       View 17 12 9 Nil;
       View 18 14 10 Nil;
       Frame
        (block [
         Store 18 11 Nil (Sub (Add (Const (24358670995670989 # 1000000000000000000) (mkU 2 2 (-6) (-2))) (Mul (Const (76533982683982561 # 1000000000000000000000) (mkU 2 2 (-6) (-4))) (Var 17))) (Mul (Const (42099567099572201 # 1000000000000000000000000) (mkU 2 2 (-6) (-6))) (Pow (Var 17) 2)))]);
       Let 19 (Const (3466023585520853 # 10000000000000000) none);
       View 20 7 12 Nil;
       View 21 8 13 Nil;
       View 22 11 14 Nil;
       View 23 13 15 Nil;
       View 24 10 16 Nil;
       View 25 9 17 Nil;
       Frame
        (block [
         Let 26 (Div (Mul (Mul (Mul (Abs (Sub (Var 20) (Var 21))) (Const (981 # 100) (mkU 2 0 (-4) 0))) (Pow (Var 25) 3)) (Var 22)) (Mul (Add (Var 21) (Var 24)) (Pow (Var 23) 2)));
         Return]);
       Let 27 (Pow (Add (Const (33 # 40) none) (Mul (Const (387 # 1000) none) (Fn 18 (Cons (Mul (Var 26) (Var 19)) Nil)))) 2);
       Let 28 (Div (Mul (Var 27) (Var 14)) (Var 9));
       Return]);
     View 6 28 19 Nil;
     Return])
    (block [
     View 29 1 20 Nil;
     View 30 2 21 Nil;
     View 31 3 22 Nil;
     View 32 5 23 Nil;
     Frame
      (block [
       Let 33 (Const (5463 # 20) (mkU 0 0 0 2));
       Let 34 (Const (177 # 250) none);
       Let 35 (Div (Add (Var 30) (Var 29)) (Const (2 # 1) none));
       View 36 35 24 Nil;
       Frame
        (block [
         Let 37 (Add (Add (Const (13500069264069257 # 1000000000000000000000) (mkU 4 0 (-2) 0)) (Mul (Const (88810389610389459 # 1000000000000000000000000) (mkU 4 0 (-2) (-2))) (Var 36))) (Mul (Const (10974025974025443 # 100000000000000000000000000) (mkU 4 0 (-2) (-4))) (Pow (Var 36) 2)));
         Return]);
       View 38 37 25 Nil;
       View 39 35 26 Nil;
       Frame
        (block [
         Let 40 (Sub (Add (Const (24358670995670989 # 1000000000000000000) (mkU 2 2 (-6) (-2))) (Mul (Const (76533982683982561 # 1000000000000000000000) (mkU 2 2 (-6) (-4))) (Var 39))) (Mul (Const (42099567099572201 # 1000000000000000000000000) (mkU 2 2 (-6) (-6))) (Pow (Var 39) 2)));
         Return]);
       View 41 40 27 Nil;
       Let 42 (Const (0 # 1) none);
       View 43 29 29 Nil;
       View 44 30 30 Nil;
       View 45 34 31 Nil;
       View 46 38 32 Nil;
       View 47 33 33 Nil;
       View 48 31 34 Nil;
       Frame
        (block [
         Let 49 (Div (Mul (Mul (Mul (Abs (Sub (Var 43) (Var 44))) (Const (981 # 100) (mkU 2 0 (-4) 0))) (Pow (Var 48) 3)) (Var 45)) (Mul (Add (Var 44) (Var 47)) (Pow (Var 46) 2)));
         Return]);
       View 50 49 35 Nil;
       For 51 53 (Cons (Fn 36 Nil) Nil)
        (block [
         If (Fn 44 (Cons (Fn 39 (Cons (Sel 37 (Var 32) (Cons (Var 51) Nil)) (Cons (Cmp Ge (Sel 38 (Var 29) (Cons (Var 51) Nil)) (Var 30)) Nil))) (Cons (Fn 43 (Cons (Fn 41 (Cons (Sel 40 (Var 32) (Cons (Var 51) Nil)) Nil)) (Cons (Cmp Lt (Sel 42 (Var 29) (Cons (Var 51) Nil)) (Var 30)) Nil))) Nil)))
          (block [
           Let 52 (Const (40306002707296223 # 100000000000000000) none);
           Let 53 (Mul (Sel 45 (Var 50) (Cons (Var 51) Nil)) (Var 52));
           If (Cmp Le (Var 53) (Const (70000 # 1) none))
            (block [
             Store 42 47 (Cons (Var 51) Nil) (Mul (Const (383 # 500) none) (Fn 46 (Cons (Var 53) Nil)))])
            (block [
             Store 42 49 (Cons (Var 51) Nil) (Mul (Const (3 # 20) none) (Fn 48 (Cons (Var 53) Nil)))])])
          (block [
           Let 52 (Const (3466023585520853 # 10000000000000000) none);
           Store 42 52 (Cons (Var 51) Nil) (Mul (Const (3 # 5) none) (Fn 51 (Cons (Mul (Sel 50 (Var 50) (Cons (Var 51) Nil)) (Var 52)) Nil)))])]);
       Let 54 (Div (Mul (Var 42) (Var 41)) (Var 31));
       Return]);
     View 6 54 54 Nil;
     Return])]).
(** multisim/precomp_funs.py 4797 *)
Definition f_vert_plane_alpha_inf : func := mkF "vert_plane_alpha_inf" 4797
  [("T_s", 1); ("T_inf", 2); ("flow_length", 3)]
  [22]
  [(1, (mkU 0 0 0 2)); (2, (mkU 0 0 0 2)); (3, (mkU 2 0 0 0)); (4, (mkU 0 0 0 2)); (6, (mkU 0 0 0 2)); (7, (mkU 4 0 (-2) 0)); (8, (mkU 2 2 (-6) (-2))); (9, (mkU 0 0 0 2)); (10, (mkU 4 0 (-2) 0)); (11, (mkU 0 0 0 2)); (12, (mkU 2 2 (-6) (-2))); (14, (mkU 0 0 0 2)); (15, (mkU 0 0 0 2)); (17, (mkU 4 0 (-2) 0)); (18, (mkU 0 0 0 2)); (19, (mkU 2 0 0 0)); (22, (mkU 0 2 (-6) (-2)))]
  (block [
   Let 4 (Const (5463 # 20) (mkU 0 0 0 2));
   Let 5 (Const (177 # 250) none);
   Let 6 (Div (Add (Var 2) (Var 1)) (Const (2 # 1) none));
   Let 7 (Const (0 # 1) (mkU 4 0 (-2) 0));
   Let 8 (Const (0 # 1) (mkU 2 2 (-6) (-2)));
   View 9 6 3 Nil;
   View 10 7 4 Nil;
   Frame
    (block [
     Store 10 5 Nil (Add (Add (Const (13500069264069257 # 1000000000000000000000) (mkU 4 0 (-2) 0)) (Mul (Const (88810389610389459 # 1000000000000000000000000) (mkU 4 0 (-2) (-2))) (Var 9))) (Mul (Const (10974025974025443 # 100000000000000000000000000) (mkU 4 0 (-2) (-4))) (Pow (Var 9) 2)))]);
   View 11 6 6 Nil;
   View 12 8 7 Nil;
   Frame
    (block [
     Store 12 8 Nil (Sub (Add (Const (24358670995670989 # 1000000000000000000) (mkU 2 2 (-6) (-2))) (Mul (Const (76533982683982561 # 1000000000000000000000) (mkU 2 2 (-6) (-4))) (Var 11))) (Mul (Const (42099567099572201 # 1000000000000000000000000) (mkU 2 2 (-6) (-6))) (Pow (Var 11) 2)))]);
   Let 13 (Const (3466023585520853 # 10000000000000000) none);
   View 14 1 9 Nil;
   View 15 2 10 Nil;
   View 16 5 11 Nil;
   View 17 7 12 Nil;
   View 18 4 13 Nil;
   View 19 3 14 Nil;
   Frame
    (block [
     Let 20 (Div (Mul (Mul (Mul (Abs (Sub (Var 14) (Var 15))) (Const (981 # 100) (mkU 2 0 (-4) 0))) (Pow (Var 19) 3)) (Var 16)) (Mul (Add (Var 15) (Var 18)) (Pow (Var 17) 2)));
     Return]);
   Let 21 (Pow (Add (Const (33 # 40) none) (Mul (Const (387 # 1000) none) (Fn 15 (Cons (Mul (Var 20) (Var 13)) Nil)))) 2);
   Let 22 (Div (Mul (Var 21) (Var 8)) (Var 3));
   Return]).
(** multisim/precomp_funs.py 4841 *)
Definition f_hor_plane_alpha_inf : func := mkF "hor_plane_alpha_inf" 4841
  [("T_s", 1); ("T_inf", 2); ("flow_length", 3); ("top", 4)]
  [26]
  [(1, (mkU 0 0 0 2)); (2, (mkU 0 0 0 2)); (3, (mkU 2 0 0 0)); (5, (mkU 0 0 0 2)); (7, (mkU 0 0 0 2)); (8, (mkU 0 0 0 2)); (9, (mkU 4 0 (-2) 0)); (10, (mkU 4 0 (-2) 0)); (11, (mkU 0 0 0 2)); (12, (mkU 2 2 (-6) (-2))); (13, (mkU 2 2 (-6) (-2))); (15, (mkU 0 0 0 2)); (16, (mkU 0 0 0 2)); (18, (mkU 4 0 (-2) 0)); (19, (mkU 0 0 0 2)); (20, (mkU 2 0 0 0)); (26, (mkU 0 2 (-6) (-2)))]
  (block [
   Let 5 (Const (5463 # 20) (mkU 0 0 0 2));
   Let 6 (Const (177 # 250) none);
   Let 7 (Div (Add (Var 2) (Var 1)) (Const (2 # 1) none));
   View 8 7 1 Nil;
   Frame
    (block [
     Let 9 (Add (Add (Const (13500069264069257 # 1000000000000000000000) (mkU 4 0 (-2) 0)) (Mul (Const (88810389610389459 # 1000000000000000000000000) (mkU 4 0 (-2) (-2))) (Var 8))) (Mul (Const (10974025974025443 # 100000000000000000000000000) (mkU 4 0 (-2) (-4))) (Pow (Var 8) 2)));
     Return]);
   View 10 9 2 Nil;
   View 11 7 3 Nil;
   Frame
    (block [
     Let 12 (Sub (Add (Const (24358670995670989 # 1000000000000000000) (mkU 2 2 (-6) (-2))) (Mul (Const (76533982683982561 # 1000000000000000000000) (mkU 2 2 (-6) (-4))) (Var 11))) (Mul (Const (42099567099572201 # 1000000000000000000000000) (mkU 2 2 (-6) (-6))) (Pow (Var 11) 2)));
     Return]);
   View 13 12 4 Nil;
   Let 14 (Const (0 # 1) none);
   View 15 1 6 Nil;
   View 16 2 7 Nil;
   View 17 6 8 Nil;
   View 18 10 9 Nil;
   View 19 5 10 Nil;
   View 20 3 11 Nil;
   Frame
    (block [
     Let 21 (Div (Mul (Mul (Mul (Abs (Sub (Var 15) (Var 16))) (Const (981 # 100) (mkU 2 0 (-4) 0))) (Pow (Var 20) 3)) (Var 17)) (Mul (Add (Var 16) (Var 19)) (Pow (Var 18) 2)));
     Return]);
   View 22 21 12 Nil;
   For 23 30 (Cons (Fn 13 Nil) Nil)
    (block [
     If (Fn 21 (Cons (Fn 16 (Cons (Sel 14 (Var 4) (Cons (Var 23) Nil)) (Cons (Cmp Ge (Sel 15 (Var 1) (Cons (Var 23) Nil)) (Var 2)) Nil))) (Cons (Fn 20 (Cons (Fn 18 (Cons (Sel 17 (Var 4) (Cons (Var 23) Nil)) Nil)) (Cons (Cmp Lt (Sel 19 (Var 1) (Cons (Var 23) Nil)) (Var 2)) Nil))) Nil)))
      (block [
       Let 24 (Const (40306002707296223 # 100000000000000000) none);
       Let 25 (Mul (Sel 22 (Var 22) (Cons (Var 23) Nil)) (Var 24));
       If (Cmp Le (Var 25) (Const (70000 # 1) none))
        (block [
         Store 14 24 (Cons (Var 23) Nil) (Mul (Const (383 # 500) none) (Fn 23 (Cons (Var 25) Nil)))])
        (block [
         Store 14 26 (Cons (Var 23) Nil) (Mul (Const (3 # 20) none) (Fn 25 (Cons (Var 25) Nil)))])])
      (block [
       Let 24 (Const (3466023585520853 # 10000000000000000) none);
       Store 14 29 (Cons (Var 23) Nil) (Mul (Const (3 # 5) none) (Fn 28 (Cons (Mul (Sel 27 (Var 22) (Cons (Var 23) Nil)) (Var 24)) Nil)))])]);
   Let 26 (Div (Mul (Var 14) (Var 13)) (Var 3));
   Return]).
(** multisim/precomp_funs.py 4910 *)
Definition f_UA_fld_wll_ins_amb_cyl : func := mkF "UA_fld_wll_ins_amb_cyl" 4910
  [("A_i", 1); ("r_ln_wll", 2); ("r_ln_ins", 3); ("r_rins", 4); ("alpha_i", 5); ("alpha_inf", 6); ("lam_wll", 7); ("lam_ins", 8); ("out", 9)]
  []
  [(1, (mkU 4 0 0 0)); (2, (mkU 2 0 0 0)); (3, (mkU 2 0 0 0)); (5, (mkU 0 2 (-6) (-2))); (6, (mkU 0 2 (-6) (-2))); (7, (mkU 2 2 (-6) (-2))); (8, (mkU 2 2 (-6) (-2))); (9, (mkU 4 2 (-6) (-2)))]
  (block [
   Store 9 1 Nil (Div (Var 1) (Add (Add (Add (Div (Const (1 # 1) none) (Var 5)) (Div (Var 2) (Var 7))) (Div (Var 3) (Var 8))) (Div (Var 4) (Var 6))))]).
(** multisim/precomp_funs.py 4969 *)
Definition f_UA_fld_wll_amb_cyl : func := mkF "UA_fld_wll_amb_cyl" 4969
  [("A_i", 1); ("r_ln_wll", 2); ("r_ro", 3); ("alpha_i", 4); ("alpha_inf", 5); ("lam_wll", 6); ("UA", 7)]
  []
  [(1, (mkU 4 0 0 0)); (2, (mkU 2 0 0 0)); (4, (mkU 0 2 (-6) (-2))); (5, (mkU 0 2 (-6) (-2))); (6, (mkU 2 2 (-6) (-2))); (7, (mkU 4 2 (-6) (-2)))]
  (block [
   Store 7 1 Nil (Div (Var 1) (Add (Add (Div (Const (1 # 1) none) (Var 4)) (Div (Var 2) (Var 6))) (Div (Var 3) (Var 5))))]).
(** multisim/precomp_funs.py 5009 *)
Definition f_UA_fld_wll_cyl : func := mkF "UA_fld_wll_cyl" 5009
  [("A_i", 1); ("r_i", 2); ("r_o", 3); ("alpha_i", 4); ("lam_wll", 5); ("UA", 6)]
  []
  [(1, (mkU 4 0 0 0)); (2, (mkU 2 0 0 0)); (3, (mkU 2 0 0 0)); (4, (mkU 0 2 (-6) (-2))); (5, (mkU 2 2 (-6) (-2))); (6, (mkU 4 2 (-6) (-2)))]
  (block [
   Store 6 2 Nil (Div (Var 1) (Add (Div (Const (1 # 1) none) (Var 4)) (Div (Mul (Var 2) (Fn 1 (Cons (Div (Add (Div (Var 3) (Var 2)) (Const (1 # 1) none)) (Const (2 # 1) none)) Nil))) (Var 5))))]).
(** multisim/precomp_funs.py 5046 *)
Definition f_UA_wll_ins_amb_cyl : func := mkF "UA_wll_ins_amb_cyl" 5046
  [("A_i", 1); ("r_i", 2); ("r_o", 3); ("r_ln_ins", 4); ("r_rins", 5); ("alpha_inf", 6); ("lam_wll", 7); ("lam_ins", 8); ("UA", 9)]
  []
  [(1, (mkU 4 0 0 0)); (2, (mkU 2 0 0 0)); (3, (mkU 2 0 0 0)); (4, (mkU 2 0 0 0)); (6, (mkU 0 2 (-6) (-2))); (7, (mkU 2 2 (-6) (-2))); (8, (mkU 2 2 (-6) (-2))); (9, (mkU 4 2 (-6) (-2)))]
  (block [
   Store 9 2 Nil (Div (Var 1) (Add (Add (Div (Mul (Var 2) (Fn 1 (Cons (Div (Const (2 # 1) none) (Add (Div (Var 2) (Var 3)) (Const (1 # 1) none))) Nil))) (Var 7)) (Div (Var 4) (Var 8))) (Div (Var 5) (Var 6))))]).
(** multisim/precomp_funs.py 5100 *)
Definition f_UA_wll_amb_cyl : func := mkF "UA_wll_amb_cyl" 5100
  [("A_i", 1); ("r_i", 2); ("r_o", 3); ("alpha_inf", 4); ("lam_wll", 5); ("UA", 6)]
  []
  [(1, (mkU 4 0 0 0)); (2, (mkU 2 0 0 0)); (3, (mkU 2 0 0 0)); (4, (mkU 0 2 (-6) (-2))); (5, (mkU 2 2 (-6) (-2))); (6, (mkU 4 2 (-6) (-2)))]
  (block [
   Store 6 2 Nil (Div (Var 1) (Add (Div (Mul (Var 2) (Fn 1 (Cons (Div (Const (2 # 1) none) (Add (Div (Var 2) (Var 3)) (Const (1 # 1) none))) Nil))) (Var 5)) (Div (Var 2) (Mul (Var 3) (Var 4)))))]).
(** multisim/precomp_funs.py 5137 *)
Definition f_UA_fld_wll_plate : func := mkF "UA_fld_wll_plate" 5137
  [("A", 1); ("s_wll", 2); ("alpha_fld", 3); ("lam_wll", 4)]
  [5]
  [(1, (mkU 4 0 0 0)); (2, (mkU 2 0 0 0)); (3, (mkU 0 2 (-6) (-2))); (4, (mkU 2 2 (-6) (-2))); (5, (mkU 4 2 (-6) (-2)))]
  (block [
   Let 5 (Div (Var 1) (Add (Div (Const (1 # 1) none) (Var 3)) (Div (Var 2) (Var 4))));
   Return]).
(** multisim/precomp_funs.py 5162 *)
Definition f_UA_fld_wll_ins_amb_plate : func := mkF "UA_fld_wll_ins_amb_plate" 5162
  [("A", 1); ("s_wll", 2); ("s_ins", 3); ("alpha_fld", 4); ("alpha_inf", 5); ("lam_wll", 6); ("lam_ins", 7)]
  [8]
  [(1, (mkU 4 0 0 0)); (2, (mkU 2 0 0 0)); (3, (mkU 2 0 0 0)); (4, (mkU 0 2 (-6) (-2))); (5, (mkU 0 2 (-6) (-2))); (6, (mkU 2 2 (-6) (-2))); (7, (mkU 2 2 (-6) (-2))); (8, (mkU 4 2 (-6) (-2)))]
  (block [
   Let 8 (Div (Var 1) (Add (Add (Add (Div (Const (1 # 1) none) (Var 4)) (Div (Var 2) (Var 6))) (Div (Var 3) (Var 7))) (Div (Const (1 # 1) none) (Var 5))));
   Return]).
(** multisim/precomp_funs.py 5200 *)
Definition f_UA_wll_ins_amb_plate : func := mkF "UA_wll_ins_amb_plate" 5200
  [("A", 1); ("s_wll", 2); ("s_ins", 3); ("lam_wll", 4); ("lam_ins", 5); ("alpha_inf", 6)]
  [7]
  [(1, (mkU 4 0 0 0)); (2, (mkU 2 0 0 0)); (3, (mkU 2 0 0 0)); (4, (mkU 2 2 (-6) (-2))); (5, (mkU 2 2 (-6) (-2))); (6, (mkU 0 2 (-6) (-2))); (7, (mkU 4 2 (-6) (-2)))]
  (block [
   Let 7 (Div (Var 1) (Add (Add (Div (Var 2) (Var 4)) (Div (Var 3) (Var 5))) (Div (Const (1 # 1) none) (Var 6))));
   Return]).
(** multisim/precomp_funs.py 5230 *)
Definition f_surface_temp_steady_state_inplace : func := mkF "surface_temp_steady_state_inplace" 5230
  [("T", 1); ("T_inf", 2); ("A_s", 3); ("alpha_inf", 4); ("UA", 5); ("T_s", 6)]
  []
  [(1, (mkU 0 0 0 2)); (2, (mkU 0 0 0 2)); (3, (mkU 4 0 0 0)); (4, (mkU 0 2 (-6) (-2))); (5, (mkU 4 2 (-6) (-2))); (6, (mkU 0 0 0 2))]
  (block [
   Store 6 1 Nil (Add (Var 2) (Div (Mul (Sub (Var 1) (Var 2)) (Var 5)) (Mul (Var 4) (Var 3))))]).
(** multisim/precomp_funs.py 5263 *)
Definition f_surface_temp_steady_state : func := mkF "surface_temp_steady_state" 5263
  [("T", 1); ("T_inf", 2); ("A_s", 3); ("alpha_inf", 4); ("UA", 5)]
  [6]
  [(1, (mkU 0 0 0 2)); (2, (mkU 0 0 0 2)); (3, (mkU 4 0 0 0)); (4, (mkU 0 2 (-6) (-2))); (5, (mkU 4 2 (-6) (-2))); (6, (mkU 0 0 0 2))]
  (block [
   Let 6 (Add (Var 2) (Div (Mul (Sub (Var 1) (Var 2)) (Var 5)) (Mul (Var 4) (Var 3))));
   Return]).
(** multisim/precomp_funs.py 5296 *)
Definition f_series_circuit_UA : func := mkF "series_circuit_UA" 5296
  [("args", 1)]
  [5]
  [(1, (mkU 4 2 (-6) (-2))); (2, (mkU (-4) (-2) 6 2)); (4, (mkU 4 2 (-6) (-2))); (5, (mkU 4 2 (-6) (-2)))]
  (block [
   Let 2 (Div (Const (1 # 1) none) (Sel 1 (Var 1) Nil));
   For 3 3 Nil
    (block [
     View 4 1 2 (Cons (Var 3) Nil);
     Let 2 (Add (Var 2) (Div (Const (1 # 1) none) (Var 4)))]);
   Let 5 (Div (Const (1 # 1) none) (Var 2));
   Return]).
(** multisim/precomp_funs.py 5324 *)
Definition f_parallel_circuit_UA : func := mkF "parallel_circuit_UA" 5324
  [("args", 1)]
  [5]
  [(1, (mkU 4 2 (-6) (-2))); (2, (mkU 4 2 (-6) (-2))); (4, (mkU 4 2 (-6) (-2))); (5, (mkU 4 2 (-6) (-2)))]
  (block [
   View 2 1 1 Nil;
   For 3 3 Nil
    (block [
     View 4 1 2 (Cons (Var 3) Nil);
     Let 2 (Add (Var 2) (Var 4))]);
   View 5 2 4 Nil;
   Return]).
(** multisim/precomp_funs.py 5354 *)
Definition f_log_mean_temp_diff : func := mkF "log_mean_temp_diff" 5354
  [("T_A_one", 1); ("T_A_two", 2); ("T_B_one", 3); ("T_B_two", 4)]
  [8]
  [(1, (mkU 0 0 0 2)); (2, (mkU 0 0 0 2)); (3, (mkU 0 0 0 2)); (4, (mkU 0 0 0 2)); (5, (mkU 0 0 0 2)); (6, (mkU 0 0 0 2)); (7, (mkU 0 0 0 2)); (8, (mkU 0 0 0 2))]
  (block [
   Let 5 (Sub (Var 1) (Var 2));
   Let 6 (Sub (Var 3) (Var 4));
   Let 7 (Div (Sub (Var 5) (Var 6)) (Fn 1 (Cons (Div (Var 5) (Var 6)) Nil)));
   View 8 7 2 Nil;
   Return]).
(** multisim/precomp_funs.py 5379 *)
Definition f_moving_avg : func := mkF "moving_avg" 5379
  [("x", 1); ("N", 2)]
  [5]
  [(1, (mkU 0 0 0 2)); (3, (mkU 0 0 0 2)); (4, (mkU 0 0 0 2)); (5, (mkU 0 0 0 2))]
  (block [
   Let 3 (Const (0 # 1) (mkU 0 0 0 2));
   Store 3 2 Nil (Var 1);
   Let 4 (Red Sum 3 (Var 3));
   Let 5 (Div (Sub (Sel 4 (Var 4) (Cons (Var 2) Nil)) (Sel 5 (Var 4) (Cons (Neg (Var 2)) Nil))) (Fn 6 (Cons (Var 2) Nil)));
   Return]).
(** multisim/precomp_funs.py 5390 *)
Definition f_fill_edges : func := mkF "fill_edges" 5390
  [("x", 1); ("new_length", 2)]
  [7]
  [(1, (mkU 0 0 0 2)); (5, (mkU 0 0 0 2)); (7, (mkU 0 0 0 2))]
  (block [
   Let 3 (Fn 1 Nil);
   Let 4 (Sub (Var 2) (Var 3));
   Let 5 (Const (0 # 1) (mkU 0 0 0 2));
   Let 6 (Add (Fn 2 (Cons (Var 4) (Cons (Const (2 # 1) none) Nil))) (Fn 3 (Cons (Var 4) (Cons (Const (2 # 1) none) Nil))));
   Store 5 4 (Cons (Var 6) (Cons (Add (Var 6) (Var 3)) Nil)) (Var 1);
   Store 5 6 (Cons (Var 6) Nil) (Sel 5 (Var 1) Nil);
   Store 5 8 (Cons (Add (Var 3) (Var 6)) Nil) (Sel 7 (Var 1) Nil);
   View 7 5 9 Nil;
   Return]).
(** multisim/precomp_funs.py 5404 *)
Definition f_moving_avg_fill_edges : func := mkF "moving_avg_fill_edges" 5404
  [("x", 1); ("N", 2)]
  [3]
  [(1, (mkU 0 0 0 2)); (3, (mkU 0 0 0 2)); (4, (mkU 0 0 0 2)); (5, (mkU 0 0 0 2)); (7, (mkU 0 0 0 2)); (8, (mkU 0 0 0 2)); (9, (mkU 0 0 0 2)); (13, (mkU 0 0 0 2)); (15, (mkU 0 0 0 2))]
  (block [
   View 5 1 1 Nil;
   View 6 2 2 Nil;
   Frame
    (block [
     Let 7 (Const (0 # 1) (mkU 0 0 0 2));
     Store 7 4 Nil (Var 5);
     Let 8 (Red Sum 5 (Var 7));
     Let 9 (Div (Sub (Sel 6 (Var 8) (Cons (Var 6) Nil)) (Sel 7 (Var 8) (Cons (Neg (Var 6)) Nil))) (Fn 8 (Cons (Var 6) Nil)));
     Return]);
   Let 4 (Var 9);
   Let 10 (Fn 9 Nil);
   Frame
    (block [
     Let 11 (Fn 10 Nil);
     Let 12 (Sub (Var 10) (Var 11));
     Let 13 (Const (0 # 1) (mkU 0 0 0 2));
     Let 14 (Add (Fn 11 (Cons (Var 12) (Cons (Const (2 # 1) none) Nil))) (Fn 12 (Cons (Var 12) (Cons (Const (2 # 1) none) Nil))));
     Store 13 13 (Cons (Var 14) (Cons (Add (Var 14) (Var 11)) Nil)) (Var 4);
     Store 13 15 (Cons (Var 14) Nil) (Sel 14 (Var 4) Nil);
     Store 13 17 (Cons (Add (Var 11) (Var 14)) Nil) (Sel 16 (Var 4) Nil);
     View 15 13 18 Nil;
     Return]);
   View 3 15 19 Nil;
   Return]).
(** multisim/precomp_funs.py 5412 *)
Definition f_weighted_moving_avg : func := mkF "weighted_moving_avg" 5412
  [("x", 1); ("wght", 2); ("fill_edges", 3)]
  [11]
  [(1, (mkU 0 0 0 2)); (9, (mkU 0 0 0 2)); (11, (mkU 0 0 0 2))]
  (block [
   Let 4 (Fn 1 Nil);
   Let 5 (Add (Sub (Fn 2 Nil) (Var 4)) (Const (1 # 1) none));
   If (Var 3)
    (block [
     Let 6 (Fn 3 Nil);
     Let 7 (Sub (Var 6) (Var 5));
     Let 8 (Add (Fn 4 (Cons (Var 7) (Cons (Const (2 # 1) none) Nil))) (Fn 5 (Cons (Var 7) (Cons (Const (2 # 1) none) Nil))));
     Let 9 (Const (0 # 1) (mkU 0 0 0 2))])
    (block [
     Let 8 (Const (0 # 1) none);
     Let 9 (Const (0 # 1) (mkU 0 0 0 2))]);
   For 10 9 (Cons (Var 5) Nil)
    (block [
     Store 9 8 (Cons (Add (Var 10) (Var 8)) Nil) (Red Sum 7 (Mul (Sel 6 (Var 1) (Cons (Var 10) (Cons (Add (Var 10) (Var 4)) Nil))) (Var 2)))]);
   If (Var 3)
    (block [
     Store 9 11 (Cons (Var 8) Nil) (Sel 10 (Var 9) (Cons (Var 8) Nil));
     Store 9 13 (Cons (Add (Var 5) (Var 8)) Nil) (Sel 12 (Var 9) (Cons (Add (Var 10) (Var 8)) Nil))])
    Skip;
   View 11 9 14 Nil;
   Return]).

(** The calls written out in each function: function called, its parameters and results as variables of the caller. *)
Definition calls : list (string * list (string * list (string * positive) * list positive)) := [
  ("_port_values_to_idx", []);
  ("_port_values_to_cont", []);
  ("_process_flow_invar", []);
  ("_process_flow_invar_fast", []);
  ("_process_flow_var", []);
  ("_process_flow_multi_flow", []);
  ("_process_ports_collapsed", [("cp_water", [("T", 19)], [20]);
    ("lambda_water", [("T", 21)], [22])]);
  ("_process_ports", [("cp_water", [("T", 19)], [20]);
    ("lambda_water", [("T", 21)], [22])]);
  ("water_mat_props_ext_view", [("get_cp_water", [("T", 6); ("cp", 7)], []);
    ("get_lambda_water", [("T", 8); ("lam", 9)], []);
    ("get_rho_water", [("T", 10); ("rho", 11)], []);
    ("get_ny_water", [("T", 12); ("ny", 13)], [])]);
  ("water_mat_props_ext", [("cp_water", [("T", 6)], [7]);
    ("lambda_water", [("T", 8)], [9]);
    ("rho_water", [("T", 10)], [11]);
    ("ny_water", [("T", 12)], [13])]);
  ("water_mat_props", [("get_cp_water", [("T", 6); ("cp", 7)], []);
    ("get_lambda_water", [("T", 8); ("lam", 9)], []);
    ("get_rho_water", [("T", 10); ("rho", 11)], []);
    ("get_ny_water", [("T", 12); ("ny", 13)], [])]);
  ("cell_temp_props_ext", []);
  ("cell_temp_props_fld", []);
  ("specific_inner_energy_wll", []);
  ("cell_temp_props", []);
  ("_lambda_mean_view", []);
  ("_lambda_mean", []);
  ("UA_plate_tb", []);
  ("UA_plate_tb_fld", []);
  ("UA_plate_tb_wll", []);
  ("buoyancy_byNusselt", [("Pr_water_return", [("T", 9)], [10]);
    ("beta_water_return", [("T", 12)], [13])]);
  ("buoyancy_AixLib", [("beta_water_return", [("T", 10)], [11])]);
  ("_vonNeumann_stability_invar", []);
  ("_vonNeumann_stability_invar_hexnum", []);
  ("_vonNeumann_stability_var", []);
  ("pipe1D_diff", [("_process_flow_invar", [("process_flows", 60); ("dm_io", 61); ("dm_top", 62); ("dm_bot", 63); ("dm_port", 64); ("stepnum", 65); ("res_dm", 66)], [67]);
    ("get_cp_water", [("T", 73); ("cp", 74)], []);
    ("get_lambda_water", [("T", 75); ("lam", 76)], []);
    ("get_rho_water", [("T", 77); ("rho", 78)], []);
    ("get_ny_water", [("T", 79); ("ny", 80)], []);
    ("water_mat_props_ext_view", [("T_ext", 68); ("cp_T", 69); ("lam_T", 70); ("rho_T", 71); ("ny_T", 72)], []);
    ("_lambda_mean_view", [("lam_T", 81); ("out", 82)], []);
    ("UA_plate_tb", [("A_cell", 83); ("grid_spacing", 84); ("lam_mean", 85); ("UA_tb_wll", 86); ("out", 87)], []);
    ("surface_temp_steady_state_inplace", [("T", 88); ("T_inf", 89); ("A_s", 90); ("alpha_inf", 91); ("UA", 92); ("T_s", 93)], []);
    ("get_Re_water", [("v", 107); ("L", 108); ("ny", 109); ("Re", 110)], []);
    ("get_Pr_water", [("T", 111); ("Pr", 112)], []);
    ("pipe_alpha_i", [("dm", 94); ("T", 95); ("rho", 96); ("ny", 97); ("lam_fld", 98); ("A", 99); ("d_i", 100); ("x", 101); ("alpha", 102)], []);
    ("get_ny_dryair", [("T", 128); ("ny", 129)], []);
    ("get_lam_dryair", [("T", 130); ("lam", 131)], []);
    ("cylinder_alpha_inf", [("T_s", 117); ("T_inf", 118); ("flow_length", 119); ("vertical", 120); ("r_total", 121); ("alpha_inf", 122)], []);
    ("UA_fld_wll_ins_amb_cyl", [("A_i", 135); ("r_ln_wll", 136); ("r_ln_ins", 137); ("r_rins", 138); ("alpha_i", 139); ("alpha_inf", 140); ("lam_wll", 141); ("lam_ins", 142); ("out", 143)], []);
    ("cell_temp_props_ext", [("T_ext", 144); ("V_cell", 145); ("cp_T", 146); ("rho_T", 147); ("mcp_wll", 148); ("rhocp", 149); ("mcp", 150); ("ui", 151)], []);
    ("cp_water", [("T", 170)], [171]);
    ("lambda_water", [("T", 172)], [173]);
    ("_process_ports_collapsed", [("ports_all", 152); ("port_link_idx", 153); ("port_own_idx", 154); ("T", 155); ("mcp", 156); ("UA_port", 157); ("UA_port_wll", 158); ("A_p_fld_mean", 159); ("port_gsp", 160); ("grid_spacing", 161); ("lam_T", 162); ("cp_port", 163); ("lam_port_fld", 164); ("T_port", 165)], [174]);
    ("_vonNeumann_stability_invar", [("part_id", 176); ("stability_breaches", 177); ("UA_tb", 178); ("UA_port", 179); ("UA_amb_shell", 180); ("dm_io", 181); ("rho_T", 182); ("rhocp", 183); ("grid_spacing", 184); ("port_subs_gsp", 185); ("A_cell", 186); ("A_port", 187); ("A_shell", 188); ("r_total", 189); ("V_cell", 190); ("step_stable", 191); ("vN_max_step", 192); ("max_factor", 193); ("stepnum", 194); ("timestep", 195)], [204; 205; 206])]);
  ("pipe1D_branched_diff", [("_process_flow_var", [("process_flows", 61); ("dm_io", 62); ("dm", 63); ("dm_top", 64); ("dm_bot", 65); ("dm_port", 66); ("port_own_idx", 67); ("stepnum", 68); ("res_dm", 69)], [73]);
    ("get_cp_water", [("T", 79); ("cp", 80)], []);
    ("get_lambda_water", [("T", 81); ("lam", 82)], []);
    ("get_rho_water", [("T", 83); ("rho", 84)], []);
    ("get_ny_water", [("T", 85); ("ny", 86)], []);
    ("water_mat_props_ext_view", [("T_ext", 74); ("cp_T", 75); ("lam_T", 76); ("rho_T", 77); ("ny_T", 78)], []);
    ("_lambda_mean_view", [("lam_T", 87); ("out", 88)], []);
    ("UA_plate_tb", [("A_cell", 89); ("grid_spacing", 90); ("lam_mean", 91); ("UA_tb_wll", 92); ("out", 93)], []);
    ("surface_temp_steady_state_inplace", [("T", 94); ("T_inf", 95); ("A_s", 96); ("alpha_inf", 97); ("UA", 98); ("T_s", 99)], []);
    ("get_Re_water", [("v", 113); ("L", 114); ("ny", 115); ("Re", 116)], []);
    ("get_Pr_water", [("T", 117); ("Pr", 118)], []);
    ("pipe_alpha_i", [("dm", 100); ("T", 101); ("rho", 102); ("ny", 103); ("lam_fld", 104); ("A", 105); ("d_i", 106); ("x", 107); ("alpha", 108)], []);
    ("get_ny_dryair", [("T", 134); ("ny", 135)], []);
    ("get_lam_dryair", [("T", 136); ("lam", 137)], []);
    ("cylinder_alpha_inf", [("T_s", 123); ("T_inf", 124); ("flow_length", 125); ("vertical", 126); ("r_total", 127); ("alpha_inf", 128)], []);
    ("UA_fld_wll_ins_amb_cyl", [("A_i", 141); ("r_ln_wll", 142); ("r_ln_ins", 143); ("r_rins", 144); ("alpha_i", 145); ("alpha_inf", 146); ("lam_wll", 147); ("lam_ins", 148); ("out", 149)], []);
    ("cell_temp_props_ext", [("T_ext", 150); ("V_cell", 151); ("cp_T", 152); ("rho_T", 153); ("mcp_wll", 154); ("rhocp", 155); ("mcp", 156); ("ui", 157)], []);
    ("cp_water", [("T", 176)], [177]);
    ("lambda_water", [("T", 178)], [179]);
    ("_process_ports_collapsed", [("ports_all", 158); ("port_link_idx", 159); ("port_own_idx", 160); ("T", 161); ("mcp", 162); ("UA_port", 163); ("UA_port_wll", 164); ("A_p_fld_mean", 165); ("port_gsp", 166); ("grid_spacing", 167); ("lam_T", 168); ("cp_port", 169); ("lam_port_fld", 170); ("T_port", 171)], [180]);
    ("_vonNeumann_stability_invar", [("part_id", 182); ("stability_breaches", 183); ("UA_tb", 184); ("UA_port", 185); ("UA_amb_shell", 186); ("dm_io", 187); ("rho_T", 188); ("rhocp", 189); ("grid_spacing", 190); ("port_subs_gsp", 191); ("A_cell", 192); ("A_port", 193); ("A_shell", 194); ("r_total", 195); ("V_cell", 196); ("step_stable", 197); ("vN_max_step", 198); ("max_factor", 199); ("stepnum", 200); ("timestep", 201)], [210; 211; 212])]);
  ("heatedpipe1D_diff", [("_process_flow_invar", [("process_flows", 66); ("dm_io", 67); ("dm_top", 68); ("dm_bot", 69); ("dm_port", 70); ("stepnum", 71); ("res_dm", 72)], [73]);
    ("get_cp_water", [("T", 79); ("cp", 80)], []);
    ("get_lambda_water", [("T", 81); ("lam", 82)], []);
    ("get_rho_water", [("T", 83); ("rho", 84)], []);
    ("get_ny_water", [("T", 85); ("ny", 86)], []);
    ("water_mat_props_ext_view", [("T_ext", 74); ("cp_T", 75); ("lam_T", 76); ("rho_T", 77); ("ny_T", 78)], []);
    ("_lambda_mean_view", [("lam_T", 87); ("out", 88)], []);
    ("UA_plate_tb", [("A_cell", 89); ("grid_spacing", 90); ("lam_mean", 91); ("UA_tb_wll", 92); ("out", 93)], []);
    ("surface_temp_steady_state_inplace", [("T", 94); ("T_inf", 95); ("A_s", 96); ("alpha_inf", 97); ("UA", 98); ("T_s", 99)], []);
    ("get_Re_water", [("v", 113); ("L", 114); ("ny", 115); ("Re", 116)], []);
    ("get_Pr_water", [("T", 117); ("Pr", 118)], []);
    ("pipe_alpha_i", [("dm", 100); ("T", 101); ("rho", 102); ("ny", 103); ("lam_fld", 104); ("A", 105); ("d_i", 106); ("x", 107); ("alpha", 108)], []);
    ("get_ny_dryair", [("T", 134); ("ny", 135)], []);
    ("get_lam_dryair", [("T", 136); ("lam", 137)], []);
    ("cylinder_alpha_inf", [("T_s", 123); ("T_inf", 124); ("flow_length", 125); ("vertical", 126); ("r_total", 127); ("alpha_inf", 128)], []);
    ("UA_fld_wll_ins_amb_cyl", [("A_i", 141); ("r_ln_wll", 142); ("r_ln_ins", 143); ("r_rins", 144); ("alpha_i", 145); ("alpha_inf", 146); ("lam_wll", 147); ("lam_ins", 148); ("out", 149)], []);
    ("cell_temp_props_ext", [("T_ext", 150); ("V_cell", 151); ("cp_T", 152); ("rho_T", 153); ("mcp_wll", 154); ("rhocp", 155); ("mcp", 156); ("ui", 157)], []);
    ("cp_water", [("T", 176)], [177]);
    ("lambda_water", [("T", 178)], [179]);
    ("_process_ports_collapsed", [("ports_all", 158); ("port_link_idx", 159); ("port_own_idx", 160); ("T", 161); ("mcp", 162); ("UA_port", 163); ("UA_port_wll", 164); ("A_p_fld_mean", 165); ("port_gsp", 166); ("grid_spacing", 167); ("lam_T", 168); ("cp_port", 169); ("lam_port_fld", 170); ("T_port", 171)], [180]);
    ("_vonNeumann_stability_invar", [("part_id", 182); ("stability_breaches", 183); ("UA_tb", 184); ("UA_port", 185); ("UA_amb_shell", 186); ("dm_io", 187); ("rho_T", 188); ("rhocp", 189); ("grid_spacing", 190); ("port_subs_gsp", 191); ("A_cell", 192); ("A_port", 193); ("A_shell", 194); ("r_total", 195); ("V_cell", 196); ("step_stable", 197); ("vN_max_step", 198); ("max_factor", 199); ("stepnum", 200); ("timestep", 201)], [210; 211; 212])]);
  ("tes_diff", [("_process_flow_var", [("process_flows", 68); ("dm_io", 69); ("dm", 70); ("dm_top", 71); ("dm_bot", 72); ("dm_port", 73); ("port_own_idx", 74); ("stepnum", 75); ("res_dm", 76)], [80]);
    ("get_cp_water", [("T", 86); ("cp", 87)], []);
    ("get_lambda_water", [("T", 88); ("lam", 89)], []);
    ("get_rho_water", [("T", 90); ("rho", 91)], []);
    ("get_ny_water", [("T", 92); ("ny", 93)], []);
    ("water_mat_props_ext_view", [("T_ext", 81); ("cp_T", 82); ("lam_T", 83); ("rho_T", 84); ("ny_T", 85)], []);
    ("_lambda_mean_view", [("lam_T", 94); ("out", 95)], []);
    ("Pr_water_return", [("T", 104)], [105]);
    ("beta_water_return", [("T", 107)], [108]);
    ("buoyancy_byNusselt", [("T", 96); ("ny", 97); ("d_i", 98); ("lam_mean", 99)], []);
    ("UA_plate_tb", [("A_cell", 115); ("grid_spacing", 116); ("lam_mean", 117); ("UA_tb_wll", 118); ("out", 119)], []);
    ("surface_temp_steady_state_inplace", [("T", 120); ("T_inf", 121); ("A_s", 122); ("alpha_inf", 123); ("UA", 124); ("T_s", 125)], []);
    ("get_Re_water", [("v", 139); ("L", 140); ("ny", 141); ("Re", 142)], []);
    ("get_Pr_water", [("T", 143); ("Pr", 144)], []);
    ("pipe_alpha_i", [("dm", 126); ("T", 127); ("rho", 128); ("ny", 129); ("lam_fld", 130); ("A", 131); ("d_i", 132); ("x", 133); ("alpha", 134)], []);
    ("get_ny_dryair", [("T", 160); ("ny", 161)], []);
    ("get_lam_dryair", [("T", 162); ("lam", 163)], []);
    ("cylinder_alpha_inf", [("T_s", 149); ("T_inf", 150); ("flow_length", 151); ("vertical", 152); ("r_total", 153); ("alpha_inf", 154)], []);
    ("get_ny_dryair", [("T", 181); ("ny", 182)], []);
    ("get_lam_dryair", [("T", 183); ("lam", 184)], []);
    ("rayleigh_number", [("T_s", 186); ("T_inf", 187); ("Pr", 188); ("ny", 189); ("Kelvin", 190); ("flow_length", 191)], [192]);
    ("vert_plane_alpha_inf", [("T_s", 173); ("T_inf", 174); ("flow_length", 175)], [194]);
    ("ny_dryair_return", [("T", 202)], [203]);
    ("lam_dryair_return", [("T", 205)], [206]);
    ("rayleigh_number", [("T_s", 209); ("T_inf", 210); ("Pr", 211); ("ny", 212); ("Kelvin", 213); ("flow_length", 214)], [215]);
    ("hor_plane_alpha_inf", [("T_s", 195); ("T_inf", 196); ("flow_length", 197); ("top", 198)], [220]);
    ("plane_alpha_inf", [("T_s", 167); ("T_inf", 168); ("flow_length", 169); ("vertical", 170); ("top", 171)], [172]);
    ("UA_fld_wll_ins_amb_cyl", [("A_i", 222); ("r_ln_wll", 223); ("r_ln_ins", 224); ("r_rins", 225); ("alpha_i", 226); ("alpha_inf", 227); ("lam_wll", 228); ("lam_ins", 229); ("out", 230)], []);
    ("UA_fld_wll_ins_amb_plate", [("A", 231); ("s_wll", 232); ("s_ins", 233); ("alpha_fld", 234); ("alpha_inf", 235); ("lam_wll", 236); ("lam_ins", 237)], [238]);
    ("cell_temp_props_ext", [("T_ext", 239); ("V_cell", 240); ("cp_T", 241); ("rho_T", 242); ("mcp_wll", 243); ("rhocp", 244); ("mcp", 245); ("ui", 246)], []);
    ("cp_water", [("T", 265)], [266]);
    ("lambda_water", [("T", 267)], [268]);
    ("_process_ports_collapsed", [("ports_all", 247); ("port_link_idx", 248); ("port_own_idx", 249); ("T", 250); ("mcp", 251); ("UA_port", 252); ("UA_port_wll", 253); ("A_p_fld_mean", 254); ("port_gsp", 255); ("grid_spacing", 256); ("lam_T", 257); ("cp_port", 258); ("lam_port_fld", 259); ("T_port", 260)], [269]);
    ("_vonNeumann_stability_var", [("part_id", 271); ("stability_breaches", 272); ("UA_tb", 273); ("UA_port", 274); ("UA_amb_shell", 275); ("dm_top", 276); ("dm_bot", 277); ("dm_port", 278); ("rho_T", 279); ("rhocp", 280); ("grid_spacing", 281); ("port_subs_gsp", 282); ("A_cell", 283); ("A_port", 284); ("A_shell", 285); ("r_total", 286); ("V_cell", 287); ("step_stable", 288); ("vN_max_step", 289); ("max_factor", 290); ("stepnum", 291); ("timestep", 292)], [301; 302; 303])]);
  ("hexnum_diff", [("_process_flow_multi_flow", [("process_flows", 58); ("dm_io", 59); ("dm_top", 60); ("dm_bot", 61); ("dm_port", 62); ("stepnum", 63); ("res_dm", 64)], [66]);
    ("get_cp_water", [("T", 73); ("cp", 74)], []);
    ("get_lambda_water", [("T", 75); ("lam", 76)], []);
    ("get_rho_water", [("T", 77); ("rho", 78)], []);
    ("get_ny_water", [("T", 79); ("ny", 80)], []);
    ("water_mat_props_ext_view", [("T_ext", 68); ("cp_T", 69); ("lam_T", 70); ("rho_T", 71); ("ny_T", 72)], []);
    ("_lambda_mean_view", [("lam_T", 81); ("out", 82)], []);
    ("UA_plate_tb_fld", [("A_cell", 83); ("grid_spacing", 84); ("lam_mean", 85); ("out", 86)], []);
    ("UA_plate_tb_wll", [("UA_tb_wll", 87); ("out", 88)], []);
    ("get_Re_water", [("v", 103); ("L", 104); ("ny", 105); ("Re", 106)], []);
    ("Pr_water_return", [("T", 107)], [108]);
    ("Pr_water_return", [("T", 110)], [111]);
    ("phex_alpha_i_wll_sep_discretized", [("dm", 89); ("T_fld", 90); ("T_wll", 91); ("rho", 92); ("ny", 93); ("lam_fld", 94); ("A", 95); ("d_h", 96); ("x", 97); ("corr_Re", 98); ("alpha", 99)], []);
    ("get_Re_water", [("v", 132); ("L", 133); ("ny", 134); ("Re", 135)], []);
    ("Pr_water_return", [("T", 136)], [137]);
    ("Pr_water_return", [("T", 139)], [140]);
    ("phex_alpha_i_wll_sep_discretized", [("dm", 118); ("T_fld", 119); ("T_wll", 120); ("rho", 121); ("ny", 122); ("lam_fld", 123); ("A", 124); ("d_h", 125); ("x", 126); ("corr_Re", 127); ("alpha", 128)], []);
    ("UA_fld_wll_plate", [("A", 147); ("s_wll", 148); ("alpha_fld", 149); ("lam_wll", 150)], [151]);
    ("cell_temp_props_fld", [("T_ext_fld", 152); ("V_cell", 153); ("cp_T", 154); ("rho_T", 155); ("rhocp_fld", 156); ("mcp_fld", 157); ("ui_fld", 158)], []);
    ("specific_inner_energy_wll", [("T_wll", 159); ("cp_wll", 160); ("ui", 161)], []);
    ("cp_water", [("T", 180)], [181]);
    ("lambda_water", [("T", 182)], [183]);
    ("_process_ports_collapsed", [("ports_all", 162); ("port_link_idx", 163); ("port_own_idx", 164); ("T", 165); ("mcp", 166); ("UA_port", 167); ("UA_port_wll", 168); ("A_p_fld_mean", 169); ("port_gsp", 170); ("grid_spacing", 171); ("lam_T", 172); ("cp_port", 173); ("lam_port_fld", 174); ("T_port", 175)], [184]);
    ("_vonNeumann_stability_invar_hexnum", [("part_id", 186); ("stability_breaches", 187); ("UA_dim1", 188); ("UA_dim2", 189); ("UA_port", 190); ("dm_io", 191); ("rho_T", 192); ("rhocp", 193); ("grid_spacing", 194); ("port_subs_gsp", 195); ("A_channel", 196); ("A_plate_eff", 197); ("A_port", 198); ("V_cell", 199); ("step_stable", 200); ("vN_max_step", 201); ("max_factor", 202); ("stepnum", 203); ("timestep", 204)], [214; 215; 216])]);
  ("hexnum_diff_impl", [("_process_flow_multi_flow", [("process_flows", 51); ("dm_io", 52); ("dm_top", 53); ("dm_bot", 54); ("dm_port", 55); ("stepnum", 56); ("res_dm", 57)], [59]);
    ("get_cp_water", [("T", 65); ("cp", 66)], []);
    ("get_lambda_water", [("T", 67); ("lam", 68)], []);
    ("get_rho_water", [("T", 69); ("rho", 70)], []);
    ("get_ny_water", [("T", 71); ("ny", 72)], []);
    ("water_mat_props_ext_view", [("T_ext", 60); ("cp_T", 61); ("lam_T", 62); ("rho_T", 63); ("ny_T", 64)], []);
    ("_lambda_mean_view", [("lam_T", 73); ("out", 74)], []);
    ("UA_plate_tb_fld", [("A_cell", 75); ("grid_spacing", 76); ("lam_mean", 77); ("out", 78)], []);
    ("UA_plate_tb_wll", [("UA_tb_wll", 79); ("out", 80)], []);
    ("get_Re_water", [("v", 95); ("L", 96); ("ny", 97); ("Re", 98)], []);
    ("Pr_water_return", [("T", 99)], [100]);
    ("Pr_water_return", [("T", 102)], [103]);
    ("phex_alpha_i_wll_sep_discretized", [("dm", 81); ("T_fld", 82); ("T_wll", 83); ("rho", 84); ("ny", 85); ("lam_fld", 86); ("A", 87); ("d_h", 88); ("x", 89); ("corr_Re", 90); ("alpha", 91)], []);
    ("get_Re_water", [("v", 124); ("L", 125); ("ny", 126); ("Re", 127)], []);
    ("Pr_water_return", [("T", 128)], [129]);
    ("Pr_water_return", [("T", 131)], [132]);
    ("phex_alpha_i_wll_sep_discretized", [("dm", 110); ("T_fld", 111); ("T_wll", 112); ("rho", 113); ("ny", 114); ("lam_fld", 115); ("A", 116); ("d_h", 117); ("x", 118); ("corr_Re", 119); ("alpha", 120)], []);
    ("UA_fld_wll_plate", [("A", 139); ("s_wll", 140); ("alpha_fld", 141); ("lam_wll", 142)], [143]);
    ("cell_temp_props_fld", [("T_ext_fld", 144); ("V_cell", 145); ("cp_T", 146); ("rho_T", 147); ("rhocp_fld", 148); ("mcp_fld", 149); ("ui_fld", 150)], []);
    ("specific_inner_energy_wll", [("T_wll", 151); ("cp_wll", 152); ("ui", 153)], []);
    ("cp_water", [("T", 172)], [173]);
    ("lambda_water", [("T", 174)], [175]);
    ("_process_ports_collapsed", [("ports_all", 154); ("port_link_idx", 155); ("port_own_idx", 156); ("T", 157); ("mcp", 158); ("UA_port", 159); ("UA_port_wll", 160); ("A_p_fld_mean", 161); ("port_gsp", 162); ("grid_spacing", 163); ("lam_T", 164); ("cp_port", 165); ("lam_port_fld", 166); ("T_port", 167)], [176])]);
  ("solve_connector_3w", [("_port_values_to_cont", [("ports_all", 8); ("port_link_idx", 9); ("out", 10)], []);
    ("get_cp_water", [("T", 12); ("cp", 13)], []);
    ("cp_water", [("T", 16)], [17])]);
  ("solve_platehex", [("_port_values_to_cont", [("ports_all", 28); ("port_link_idx", 29); ("out", 30)], []);
    ("get_cp_water", [("T", 43); ("cp", 44)], []);
    ("get_lambda_water", [("T", 45); ("lam", 46)], []);
    ("get_rho_water", [("T", 47); ("rho", 48)], []);
    ("get_ny_water", [("T", 49); ("ny", 50)], []);
    ("water_mat_props", [("T", 38); ("cp_T", 39); ("lam_T", 40); ("rho_T", 41); ("ny_T", 42)], []);
    ("get_Re_water", [("v", 65); ("L", 66); ("ny", 67); ("Re", 68)], []);
    ("Pr_water_return", [("T", 69)], [70]);
    ("Pr_water_return", [("T", 72)], [73]);
    ("phex_alpha_i_wll_sep", [("dm", 51); ("T_fld", 52); ("T_wll", 53); ("rho", 54); ("ny", 55); ("lam_fld", 56); ("A", 57); ("d_h", 58); ("x", 59); ("corr_Re", 60); ("alpha", 61)], []);
    ("get_Re_water", [("v", 94); ("L", 95); ("ny", 96); ("Re", 97)], []);
    ("Pr_water_return", [("T", 98)], [99]);
    ("Pr_water_return", [("T", 101)], [102]);
    ("phex_alpha_i_wll_sep", [("dm", 80); ("T_fld", 81); ("T_wll", 82); ("rho", 83); ("ny", 84); ("lam_fld", 85); ("A", 86); ("d_h", 87); ("x", 88); ("corr_Re", 89); ("alpha", 90)], []);
    ("UA_fld_wll_plate", [("A", 109); ("s_wll", 110); ("alpha_fld", 111); ("lam_wll", 112)], [113]);
    ("series_circuit_UA", [("args", 114)], [118])]);
  ("_get_p_arr_pump", []);
  ("solve_mix", [("cp_water", [("T", 5)], [6])]);
  ("solve_split", []);
  ("solve_pump", [("_get_p_arr_pump", [("ports_all", 8); ("port_link_idx", 9); ("T", 10)], [])]);
  ("ctrl_deadtime", []);
  ("_heun_corrector_adapt", []);
  ("_embedded_adapt_stepsize", []);
  ("rayleigh_number", []);
  ("get_rho_water", []);
  ("rho_water", []);
  ("lambda_water", []);
  ("get_lambda_water", []);
  ("get_cp_water", []);
  ("cp_water", []);
  ("get_ny_water", []);
  ("ny_water", []);
  ("get_Pr_water", []);
  ("Pr_water_return", []);
  ("get_beta_water", []);
  ("beta_water_return", []);
  ("get_Re_water", []);
  ("Re_water_return", []);
  ("get_rho_dryair", []);
  ("get_lam_dryair", []);
  ("lam_dryair_return", []);
  ("get_ny_dryair", []);
  ("ny_dryair_return", []);
  ("humid_air_saturation_pressure", []);
  ("humid_air_sat_water_mass", []);
  ("pipe_get_Re", [("get_Re_water", [("v", 7); ("L", 8); ("ny", 9); ("Re", 10)], [])]);
  ("pipe_get_Re2", []);
  ("pipe_alpha_i", [("get_Re_water", [("v", 14); ("L", 15); ("ny", 16); ("Re", 17)], []);
    ("get_Pr_water", [("T", 18); ("Pr", 19)], [])]);
  ("pipe_alpha_i_wll_sep", [("get_Re_water", [("v", 14); ("L", 15); ("ny", 16); ("Re", 17)], []);
    ("get_Pr_water", [("T", 18); ("Pr", 19)], [])]);
  ("phex_alpha_i_wll_sep", [("get_Re_water", [("v", 15); ("L", 16); ("ny", 17); ("Re", 18)], []);
    ("Pr_water_return", [("T", 19)], [20]);
    ("Pr_water_return", [("T", 22)], [23])]);
  ("phex_alpha_i_wll_sep_discretized", [("get_Re_water", [("v", 15); ("L", 16); ("ny", 17); ("Re", 18)], []);
    ("Pr_water_return", [("T", 19)], [20]);
    ("Pr_water_return", [("T", 22)], [23])]);
  ("cylinder_alpha_inf", [("get_ny_dryair", [("T", 12); ("ny", 13)], []);
    ("get_lam_dryair", [("T", 14); ("lam", 15)], [])]);
  ("plane_alpha_inf", [("get_ny_dryair", [("T", 15); ("ny", 16)], []);
    ("get_lam_dryair", [("T", 17); ("lam", 18)], []);
    ("rayleigh_number", [("T_s", 20); ("T_inf", 21); ("Pr", 22); ("ny", 23); ("Kelvin", 24); ("flow_length", 25)], [26]);
    ("vert_plane_alpha_inf", [("T_s", 7); ("T_inf", 8); ("flow_length", 9)], [28]);
    ("ny_dryair_return", [("T", 36)], [37]);
    ("lam_dryair_return", [("T", 39)], [40]);
    ("rayleigh_number", [("T_s", 43); ("T_inf", 44); ("Pr", 45); ("ny", 46); ("Kelvin", 47); ("flow_length", 48)], [49]);
    ("hor_plane_alpha_inf", [("T_s", 29); ("T_inf", 30); ("flow_length", 31); ("top", 32)], [54])]);
  ("vert_plane_alpha_inf", [("get_ny_dryair", [("T", 9); ("ny", 10)], []);
    ("get_lam_dryair", [("T", 11); ("lam", 12)], []);
    ("rayleigh_number", [("T_s", 14); ("T_inf", 15); ("Pr", 16); ("ny", 17); ("Kelvin", 18); ("flow_length", 19)], [20])]);
  ("hor_plane_alpha_inf", [("ny_dryair_return", [("T", 8)], [9]);
    ("lam_dryair_return", [("T", 11)], [12]);
    ("rayleigh_number", [("T_s", 15); ("T_inf", 16); ("Pr", 17); ("ny", 18); ("Kelvin", 19); ("flow_length", 20)], [21])]);
  ("UA_fld_wll_ins_amb_cyl", []);
  ("UA_fld_wll_amb_cyl", []);
  ("UA_fld_wll_cyl", []);
  ("UA_wll_ins_amb_cyl", []);
  ("UA_wll_amb_cyl", []);
  ("UA_fld_wll_plate", []);
  ("UA_fld_wll_ins_amb_plate", []);
  ("UA_wll_ins_amb_plate", []);
  ("surface_temp_steady_state_inplace", []);
  ("surface_temp_steady_state", []);
  ("series_circuit_UA", []);
  ("parallel_circuit_UA", []);
  ("log_mean_temp_diff", []);
  ("moving_avg", []);
  ("fill_edges", []);
  ("moving_avg_fill_edges", [("moving_avg", [("x", 5); ("N", 6)], [9]);
    ("fill_edges", [("x", 4); ("new_length", 10)], [15])]);
  ("weighted_moving_avg", [])].
Definition functions : list func := [f__port_values_to_idx;
  f__port_values_to_cont;
  f__process_flow_invar;
  f__process_flow_invar_fast;
  f__process_flow_var;
  f__process_flow_multi_flow;
  f__process_ports_collapsed;
  f__process_ports;
  f_water_mat_props_ext_view;
  f_water_mat_props_ext;
  f_water_mat_props;
  f_cell_temp_props_ext;
  f_cell_temp_props_fld;
  f_specific_inner_energy_wll;
  f_cell_temp_props;
  f__lambda_mean_view;
  f__lambda_mean;
  f_UA_plate_tb;
  f_UA_plate_tb_fld;
  f_UA_plate_tb_wll;
  f_buoyancy_byNusselt;
  f_buoyancy_AixLib;
  f__vonNeumann_stability_invar;
  f__vonNeumann_stability_invar_hexnum;
  f__vonNeumann_stability_var;
  f_pipe1D_diff;
  f_pipe1D_branched_diff;
  f_heatedpipe1D_diff;
  f_tes_diff;
  f_hexnum_diff;
  f_hexnum_diff_impl;
  f_solve_connector_3w;
  f_solve_platehex;
  f__get_p_arr_pump;
  f_solve_mix;
  f_solve_split;
  f_solve_pump;
  f_ctrl_deadtime;
  f__heun_corrector_adapt;
  f__embedded_adapt_stepsize;
  f_rayleigh_number;
  f_get_rho_water;
  f_rho_water;
  f_lambda_water;
  f_get_lambda_water;
  f_get_cp_water;
  f_cp_water;
  f_get_ny_water;
  f_ny_water;
  f_get_Pr_water;
  f_Pr_water_return;
  f_get_beta_water;
  f_beta_water_return;
  f_get_Re_water;
  f_Re_water_return;
  f_get_rho_dryair;
  f_get_lam_dryair;
  f_lam_dryair_return;
  f_get_ny_dryair;
  f_ny_dryair_return;
  f_humid_air_saturation_pressure;
  f_humid_air_sat_water_mass;
  f_pipe_get_Re;
  f_pipe_get_Re2;
  f_pipe_alpha_i;
  f_pipe_alpha_i_wll_sep;
  f_phex_alpha_i_wll_sep;
  f_phex_alpha_i_wll_sep_discretized;
  f_cylinder_alpha_inf;
  f_plane_alpha_inf;
  f_vert_plane_alpha_inf;
  f_hor_plane_alpha_inf;
  f_UA_fld_wll_ins_amb_cyl;
  f_UA_fld_wll_amb_cyl;
  f_UA_fld_wll_cyl;
  f_UA_wll_ins_amb_cyl;
  f_UA_wll_amb_cyl;
  f_UA_fld_wll_plate;
  f_UA_fld_wll_ins_amb_plate;
  f_UA_wll_ins_amb_plate;
  f_surface_temp_steady_state_inplace;
  f_surface_temp_steady_state;
  f_series_circuit_UA;
  f_parallel_circuit_UA;
  f_log_mean_temp_diff;
  f_moving_avg;
  f_fill_edges;
  f_moving_avg_fill_edges;
  f_weighted_moving_avg].

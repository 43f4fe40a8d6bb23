(** Material property polynomials.

    Code modelled: precomp_funs.py 3953-4214.  The functions [get_X(T, out)]
    and [X_water(T)] have the same coefficients; one definition stands for
    both.  Simplification: exact real arithmetic with the decimal literals of
    the source. *)
From Coq Require Import Reals.
Local Open Scope R_scope.

(** get_rho_water / rho_water, precomp_funs.py 3954-3983. *)
Definition rho_water (T : R) : R :=
  999.88785713136213
  + 4.9604454990529602e-02 * T
  - 7.4722666453460717e-03 * T ^ 2
  + 4.1094484438154484e-05 * T ^ 3
  - 1.2915789546323614e-07 * T ^ 4.

(** lambda_water / get_lambda_water, precomp_funs.py 3987-4012. *)
Definition lambda_water (T : R) : R :=
  5.6987912853229539e-01
  + 1.7878370402545738e-03 * T
  - 5.9998217273879795e-06 * T ^ 2
  - 8.6964577115093407e-09 * T ^ 3.

(** get_cp_water / cp_water, precomp_funs.py 4016-4046. *)
Definition cp_water (T : R) : R :=
  4215.4023574179992
  - 2.8853943283519348 * T
  + 7.490580684801168e-02 * T ^ 2
  - 7.7807143441700321e-04 * T ^ 3
  + 3.2109328970410432e-06 * T ^ 4.

(** get_ny_water / ny_water, precomp_funs.py 4050-4077. *)
Definition ny_water (T : R) : R :=
  1.7764473380494155e-06
  - 5.5640275781265404e-08 * T
  + 1.0243072887494426e-09 * T ^ 2
  - 9.7954460136981165e-12 * T ^ 3
  + 3.6460468745062724e-14 * T ^ 4.

(** get_Pr_water / Pr_water_return, precomp_funs.py 4081-4114. *)
Definition Pr_water (T : R) : R :=
  12.5780108199379058
  - 0.35124680571767508 * T
  + 4.3225480444706085e-03 * T ^ 2
  - 1.9174193923188898e-05 * T ^ 3.

(** get_beta_water / beta_water_return, precomp_funs.py 4118-4143. *)
Definition beta_water (T : R) : R :=
  -5.87985364766666e-05
  + 1.5641955219950547e-05 * T
  - 1.3587684743777981e-07 * T ^ 2
  + 6.1220503308149086e-10 * T ^ 3.

(** get_lam_dryair / lam_dryair_return, precomp_funs.py 4171-4189. *)
Definition lam_dryair (T : R) : R :=
  0.024358670995670989
  + 7.6533982683982561e-05 * T
  - 4.2099567099572201e-08 * T ^ 2.

(** get_ny_dryair / ny_dryair_return, precomp_funs.py 4193-4211. *)
Definition ny_dryair (T : R) : R :=
  1.3500069264069257e-05
  + 8.8810389610389459e-08 * T
  + 1.0974025974025443e-10 * T ^ 2.

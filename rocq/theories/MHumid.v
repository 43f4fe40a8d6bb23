(** Model of the humid air polynomials.

    Code: /repo/multisim/precomp_funs.py [humid_air_saturation_pressure] (4216-4226),
    [humid_air_sat_water_mass] (4239-4266).

    Simplification: exact real arithmetic with the decimal literals of the source (5.99770272e02 is written
    599.770272, and so on). *)
From Coq Require Import Reals.
Local Open Scope R_scope.

Definition sat_pressure (T : R) : R :=
  1.56927617e-09 * T ^ 6
  + 2.32760367e-06 * T ^ 5
  + 3.19028425e-04 * T ^ 4
  + 2.51824584e-02 * T ^ 3
  + 1.42489091 * T ^ 2
  + 45.5277840 * T
  + 599.770272.

Definition sat_water (T : R) : R :=
  3.47491188e-19 * T ^ 10
  - 6.50956001e-17 * T ^ 9
  + 3.68271647e-15 * T ^ 8
  + 2.06252891e-14 * T ^ 7
  - 7.11474217e-12 * T ^ 6
  + 1.29052920e-10 * T ^ 5
  + 6.62755505e-09 * T ^ 4
  + 8.79652019e-08 * T ^ 3
  + 8.16034548e-06 * T ^ 2
  + 2.98380899e-04 * T
  + 3.79413965e-03.

(** * Spec_TwoLayer: reference notions for the two-layer model (no model function used) *)
From Coq Require Import Reals List.
Import ListNotations.
Open Scope R_scope.

(** seconds per year times ocean area, in units of 1e22 J per (W/m2) *)
Definition joule22 : R := 86400 * 365 * 361e12 / 1e22.
(** mean and sum of a finite series *)
Definition rsum (l : list R) : R := fold_right Rplus 0 l.
Definition rmean (l : list R) : R := rsum l / INR (length l).
(** heat capacity per area of [d] metres of water, in W yr / (m2 K) *)
Definition capacity (d : R) : R := d * 1000 * 4184 / (86400 * 365).
(** heat in 1e22 J held by the water above depth [z] when the upper [m] metres are warmer by
    [tf] and the [d] metres below them by [ts] *)
Definition heat_above (z m d tf ts : R) : R :=
  (capacity (Rmin z m) * tf + capacity (Rmin (Rmax 0 (z - m)) d) * ts) * joule22.

(** The table of PhotoproductionRhode. *)
From Verif Require Import Prelude Interpolant_Model.

(** Photon energies in GeV and cross sections in microbarns,
    detail/PROPOSAL/crosssection/parametrization/Photoproduction.cxx:175-190 *)
Definition rhode_nodes : list R :=
 [0; 1 / 10; 144544 / 1000000; 20893 / 100000; 301995 / 1000000; 436516 / 1000000;
   630957 / 1000000; 912011 / 1000000; 131826 / 100000; 190546 / 100000; 275423 / 100000;
   398107 / 100000; 57544 / 10000; 831764 / 100000; 120226 / 10000; 17378 / 1000; 251189 / 10000;
   363078 / 10000; 524807 / 10000; 758577 / 10000; 109648 / 1000; 158489 / 1000; 229087 / 1000;
   331131 / 1000; 47863 / 100; 691831 / 1000; 1000; 144544 / 100; 20893 / 10; 301995 / 100;
   436516 / 100; 630958 / 100; 912012 / 100; 131826 / 10; 190546 / 10; 275423 / 10; 398108 / 10;
   57544; 831764 / 10; 120226; 173780; 251188; 363078; 524807; 758576; 1096480; 1584890; 2290860;
   3311300; 4786280; 6918280; 9999960].
Definition rhode_values : list R :=
 [0; 666667 / 10000000; 963626 / 10000000; 15974 / 100; 508103 / 1000; 21577 / 100; 236403 / 1000;
   201919 / 1000; 151381 / 1000; 145407 / 1000; 132096 / 1000; 128546 / 1000; 125046 / 1000;
   121863 / 1000; 11916 / 100; 117022 / 1000; 115496 / 1000; 114607 / 1000; 114368 / 1000;
   114786 / 1000; 115864 / 1000; 117606 / 1000; 120011 / 1000; 12308 / 100; 126815 / 1000;
   131214 / 1000; 136278 / 1000; 142007 / 1000; 148401 / 1000; 15546 / 100; 163185 / 1000;
   171574 / 1000; 180628 / 1000; 190348 / 1000; 200732 / 1000; 211782 / 1000; 223497 / 1000;
   235876 / 1000; 248921 / 1000; 262631 / 1000; 277006 / 1000; 292046 / 1000; 307751 / 1000;
   324121 / 1000; 341157 / 1000; 358857 / 1000; 377222 / 1000; 396253 / 1000; 415948 / 1000;
   436309 / 1000; 457334 / 1000; 479025 / 1000].
(** interpolant_, Photoproduction.cxx:192: four points at a time, polynomials.  The
    object is shared by all copies of the parametrization. *)
Definition rhode_interpolant : outcome inter := make rhode_nodes rhode_values 4 false.

(** A concrete dataset used in examples: two targets, two arrays, two
    instruments, a correlation table, polarisation, and one table of each data
    kind with several records and channels. *)
From Verif Require Import Types.
Local Open Scope string_scope.

Definition fl (p q : Z) : f64 := f64_ratio p q.
Definition fl32 (p q : Z) : f32 := to_f32 (f64_ratio p q).

Definition s_header : oi_header :=
  mk_header "ESO" "2020-01-01" "2019-12-31" "OIFITS2" "VLTI" "GRAVITY" "Someone" "HIGH" "alpha"
    "" "" "P1" "" "".

Definition s_element (name : string) (i : Z) (x : Z) : element :=
  mk_element name ("S" ++ name) i (fl32 18 10) (fl x 1, fl 5 2, f64_zero) (fl 1 20) "FWHM".
Definition s_array1 : oi_array :=
  mk_array 2 "VLTI" "GEOCENTRIC" (fl 1 1) (fl 2 1) (fl 3 1) 3
    [s_element "A0" 1 10; s_element "B1" 2 20; s_element "C2" 3 30].
Definition s_array2 : oi_array :=
  mk_array 2 "CHARA" "GEOCENTRIC" (fl 7 1) (fl 8 1) (fl 9 1) 2
    [s_element "E1" 1 40; s_element "W2" 5 50].

Definition s_target (i : Z) (name : string) : target :=
  mk_target i name (fl 10 1) (fl 20 1) (fl32 2000 1) f64_zero f64_zero f64_zero "LSR" "OPTICAL"
    f64_zero f64_zero f64_zero f64_zero (S754_zero false) (S754_zero false) "A0V" "SCI".
Definition s_targets : oi_target :=
  mk_oi_target 2 2 [s_target 4 "alpha"; s_target 9 "beta"] true.

Definition s_wave1 : oi_wavelength :=
  mk_wavelength 2 "GRAVITY" 3 [fl32 20 10000000; fl32 21 10000000; fl32 22 10000000]
    [fl32 1 100000000; fl32 1 100000000; fl32 1 100000000].
Definition s_wave2 : oi_wavelength :=
  mk_wavelength 2 "PIONIER" 2 [fl32 16 10000000; fl32 17 10000000]
    [fl32 1 100000000; fl32 1 100000000].

Definition s_corr : oi_corr := mk_corr 1 "CORR1" 6 2 [1; 2] [3; 4] [fl 1 2; fl 1 4].

Definition s_cplx : list cplx := [(fl32 1 1, fl32 0 1); (fl32 1 2, fl32 1 4); (fl32 0 1, fl32 1 1)].
Definition s_inspol : oi_inspol :=
  mk_inspol 1 "2019-12-31" 2 "VLTI" "NORTH" "M" 1 3
    [mk_inspol_record 4 "GRAVITY" (fl 58848 1) (fl 58849 1) s_cplx s_cplx s_cplx s_cplx 1].

Definition s_vis_record (tid : Z) (mjd : Z) (fl3 : list bool) : vis_record :=
  mk_vis_record tid f64_zero (fl mjd 1) (fl 10 1)
    [fl 9 10; fl 8 10; fl 7 10] [fl 1 10; fl 1 10; fl 1 10] 1
    [fl 30 1; fl 40 1; fl 50 1] [fl 1 1; fl 2 1; fl 3 1] 1
    (Some [true; false; false; false; true; false; false; false; true])
    (Some [fl 1 1; fl 2 1; fl 3 1]) (Some [fl 1 10; fl 2 10; fl 3 10]) 1
    (Some [fl 4 1; fl 5 1; fl 6 1]) (Some [fl 4 10; fl 5 10; fl 6 10]) 1
    (fl 30 1) (fl 40 1) (1, 2) fl3.
Definition s_vis_extra : vis_extra := mk_vis_extra "absolute" "differential" (-1) 2 true true "Jy" "".
Definition s_vis : oi_vis :=
  mk_dtab 2 "2019-12-31" "VLTI" "GRAVITY" "CORR1" s_vis_extra 2 3
    [s_vis_record 4 58848 [false; false; true]; s_vis_record 9 58849 [false; true; false]].

Definition s_vis2_record (tid : Z) (mjd : Z) (fl2 : list bool) : vis2_record :=
  mk_vis2_record tid f64_zero (fl mjd 1) (fl 10 1) [fl 1 2; fl 1 4] [fl 1 100; fl 1 100] 1
    (fl 60 1) (fl 80 1) (1, 5) fl2.
Definition s_vis2 : oi_vis2 :=
  mk_dtab 2 "2019-12-30" "CHARA" "PIONIER" "" tt 3 2
    [s_vis2_record 4 58847 [false; false]; s_vis2_record 9 58848 [true; true];
     s_vis2_record 9 58850 [false; true]].

Definition s_t3_record (tid : Z) (mjd : Z) (fl3 : list bool) : t3_record :=
  mk_t3_record tid f64_zero (fl mjd 1) (fl 10 1) [fl 1 2; fl 1 4; fl 1 8]
    [fl 1 100; fl 1 100; fl 1 100] 1 [fl 10 1; fl (-20) 1; fl 30 1] [fl 1 1; fl 1 1; fl 2 1] 1
    (fl 30 1) (fl 40 1) (fl 5 1) (fl 12 1) (1, 2, 3) fl3.
Definition s_t3 : oi_t3 :=
  mk_dtab 2 "2019-12-31" "VLTI" "GRAVITY" "" tt 1 3 [s_t3_record 4 58848 [false; false; true]].

Definition s_flux_record (tid : Z) (mjd : Z) (fl3 : list bool) : flux_record :=
  mk_flux_record tid (fl mjd 1) (fl 10 1) [fl 100 1; fl 200 1; fl 300 1]
    [fl 1 1; fl 1 1; fl 2 1] 1 2 fl3.
Definition s_flux : oi_flux :=
  mk_dtab 1 "2019-12-31" "VLTI" "GRAVITY" "" (mk_flux_extra (fl 1 10) "FWHM" "U" "Jy") 1 3
    [s_flux_record 4 58848 [false; false; false]].

(** As returned by read_oi_fits: every name used by a data table is indexed. *)
Definition s_fits : oi_fits :=
  mk_fits s_header s_targets 2 2 1 1 1 1 1 1 [s_array1; s_array2] [s_wave1; s_wave2] [s_corr]
    [s_inspol] [s_vis] [s_vis2] [s_t3] [s_flux]
    [("CHARA", Some s_array2); ("VLTI", Some s_array1)]
    [("PIONIER", Some s_wave2); ("GRAVITY", Some s_wave1)]
    [("CORR1", Some s_corr)].

(** An atomic OIFITS v1 dataset: one target, one instrument, no array *)
Definition s_v1 : oi_fits :=
  mk_fits (mk_header "" "" "" "" "" "" "" "" "" "" "" "" "" "")
    (mk_oi_target 1 1 [s_target 1 "alpha"] false) 0 1 0 0 0 1 0 0 [] [wv_set_revision 1 s_wave2]
    [] [] [] [set_revision 1 (set_arrname "" s_vis2)] [] [] [] [("PIONIER", Some s_wave2)] [].

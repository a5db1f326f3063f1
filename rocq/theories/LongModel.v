(** Model of datemjd.c and of what calls it, with the range of [long] (64 bits, as on the
    LP64 systems the library is used on).  A value out of range is undefined behaviour
    (C11 6.5 paragraph 5; 6.3.1.4 for the conversion of a double). *)
From Verif Require Import Base FloatModel Types DateModel FileModel MergeModel.

Definition LONG_MAX : Z := 9223372036854775807.
Definition LONG_MIN : Z := -9223372036854775808.
Definition long (z : Z) : res Z := if (LONG_MIN <=? z) && (z <=? LONG_MAX) then Ok z else UB.

(** datemjd.c 39-44; a division by a positive constant is always in range *)
Definition date2mjd_l (year month day : Z) : res Z :=
  do assert_ ((1901 <=? year) && (year <=? 2099)) ;;
  a <- long (367 * year) ;;
  b <- long (month + 9) ;; b <- long (year + Z.quot b 12) ;; b <- long (7 * b) ;;
  a <- long (a - Z.quot b 4) ;;
  c <- long (275 * month) ;;
  a <- long (a + Z.quot c 9) ;;
  a <- long (a + day) ;;
  a <- long (a + 1721013) ;;
  long (a - 2400000).

(** datemjd.c 57-71 *)
Definition mjd2date_l (mjd : Z) : res (Z * Z * Z) :=
  L <- long (mjd + 2400001) ;; L <- long (L + 68569) ;;
  N <- long (4 * L) ;; let N := Z.quot N 146097 in
  n <- long (146097 * N) ;; n <- long (n + 3) ;; L <- long (L - Z.quot n 4) ;;
  I <- long (L + 1) ;; I <- long (4000 * I) ;; let I := Z.quot I 1461001 in
  i <- long (1461 * I) ;; L <- long (L - Z.quot i 4) ;; L <- long (L + 31) ;;
  J <- long (80 * L) ;; let J := Z.quot J 2447 in
  j <- long (2447 * J) ;; day <- long (L - Z.quot j 80) ;;
  let L := Z.quot J 11 in
  m <- long (J + 2) ;; l <- long (12 * L) ;; month <- long (m - l) ;;
  y <- long (N - 49) ;; y <- long (100 * y) ;; y <- long (y + I) ;; year <- long (y + L) ;;
  Ok (year, month, day).

(** oifile.c 608-610: floor() of the MJD is converted to long; the rest of the header as in
    FileModel *)
Definition set_oi_header_l (o : oi_fits) : res oi_header :=
  h <- set_oi_header o ;;
  minMjd <- get_min_mjd o ;;
  match floor_Z minMjd with
  | None => UB
  | Some day =>
      day <- long day ;; ymd <- mjd2date_l day ;;
      Ok (mk_header (h_origin h) (h_date h) (strlcpy FLEN_VALUE (format_date ymd)) (h_content h)
            (h_telescop h) (h_instrume h) (h_observer h) (h_insmode h) (h_object h)
            (h_referenc h) (h_author h) (h_prog_id h) (h_procsoft h) (h_obstech h))
  end.

(** sscanf conversion "%<w>ld": a value out of range is undefined too (7.21.6.2 paragraph 10) *)
Definition scan_ld_l (w : nat) (s : string) : res (option (Z * string)) :=
  match scan_ld w s with
  | None => Ok None
  | Some (v, s) => v <- long v ;; Ok (Some (v, s))
  end.
(** sscanf(s, "%4ld-%2ld-%2ld", ...) == 3, as [scan_date] of MergeModel *)
Definition scan_date_l (s : string) : res (option (Z * Z * Z)) :=
  y <- scan_ld_l 4 s ;;
  match y with
  | None => Ok None
  | Some (y, s) =>
      match scan_char "-" s with
      | None => Ok None
      | Some s =>
          m <- scan_ld_l 2 s ;;
          match m with
          | None => Ok None
          | Some (m, s) =>
              match scan_char "-" s with
              | None => Ok None
              | Some s =>
                  d <- scan_ld_l 2 s ;;
                  match d with None => Ok None | Some (d, _) => Ok (Some (y, m, d)) end
              end
          end
      end
  end.
(** oimerge.c 138-157 *)
Definition files_min_mjd_l (ins : list oi_fits) : res Z :=
  foreach ins (fun d minMjd =>
    ymd <- scan_date_l (h_date_obs (o_header d)) ;;
    match ymd with
    | None => Ok minMjd
    | Some (y, m, dd) =>
        mjd <- date2mjd_l y m dd ;; Ok (if mjd <? minMjd then mjd else minMjd)
    end) 100000.
(** oimerge.c 200-203, the DATE-OBS of the merged header *)
Definition merged_date_l (ins : list oi_fits) : res string :=
  mjd <- files_min_mjd_l ins ;; ymd <- mjd2date_l mjd ;;
  Ok (strlcpy FLEN_VALUE (format_date ymd)).

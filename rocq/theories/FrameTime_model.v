(* Model of gcrs2itrs, src/itrs2gcrs.cpp:157-219 (the branch without ABCD, with NEW_EOP): the matrices
   and the angle of the Earth's rotation for a TAI date.  Doubles are exact rationals.  The table and
   its interpolation are those of Eop_model.v and EopInterp_model.v.  The routines of the iers2010 and
   datetime libraries are arguments; M is the type of their matrices, A that of their angles. *)
From Coq Require Import List ZArith QArith Bool.
From Verif Require Import Base Eop_model EopInterp_model.
Local Open Scope Q_scope.

(* datetime<nanoseconds>: the day and the nanoseconds of the day *)
Definition date := (Z * Z)%type.
Definition day_ns : Z := 86400000000000.
(* datetime::as_mjd *)
Definition as_mjd (d : date) : Q := inject_Z (fst d) + inject_Z (snd d) / inject_Z day_ns.
(* datetime::add_seconds: full days go to the day *)
Definition add_ns (d : date) (ns : Z) : date := ((fst d + (snd d + ns) / day_ns)%Z, ((snd d + ns) mod day_ns)%Z).

Record sofa (A M : Type) := Sofa {
  xy06 : Q -> Q -> Q * Q;
  s06 : Q -> Q -> Q -> Q -> Q;
  c2ixys_e : Q -> Q -> Q -> M;
  era00 : Q -> Q -> A;
  sp00 : Q -> Q -> Q;
  pom00_e : Q -> Q -> Q -> M;
  arcsec2rad : Q -> Q;
  tai2utc : date -> Q * Z }.
Arguments xy06 {A M}. Arguments s06 {A M}. Arguments c2ixys_e {A M}. Arguments era00 {A M}.
Arguments sp00 {A M}. Arguments pom00_e {A M}. Arguments arcsec2rad {A M}. Arguments tai2utc {A M}.

(* dso::mjd0_jd *)
Definition mjd0_jd : Q := 24000005 # 10.
(* static_cast<int>, static_cast<long> of a double: the fraction is dropped, undefined when the rest
   does not fit *)
Definition cast (bits : Z) (x : Q) : outcome Z :=
  let z := modf_int x in if Z.leb (- 2 ^ (bits - 1)) z && Z.ltb z (2 ^ (bits - 1)) then Ok z else UB.
(* what the caller passes by reference: rc2i, era, rpom, xlod *)
Record frame (A M : Type) := Frame { f_rc2i : M; f_era : A; f_rpom : M; f_lod : Q }.
Arguments Frame {A M}. Arguments f_rc2i {A M}. Arguments f_era {A M}. Arguments f_rpom {A M}. Arguments f_lod {A M}.
(* reading a member that may not have been written *)
Definition rd (a : option Q) : outcome Q := of_option a.

(* itrs2gcrs.cpp:163-169 *)
Definition tai_date (mjd_tai : Q) : outcome date :=
  do imjd <- cast 32 mjd_tai;
  let sec := (mjd_tai - inject_Z imjd) * 86400 in
  do isec <- cast 64 (sec * 1000000000);
  Ok (imjd, isec).
(* itrs2gcrs.cpp:157-219; [r] is what the local eops holds, [o] what the caller's variables hold *)
Definition gcrs2itrs {A M} (L : iers) (S : sofa A M) (t : table Q) (r : eop_record) (mjd_tai : Q) (o : frame A M) : outcome (Z * frame A M) :=
  do taidate <- tai_date mjd_tai;
  let ttdate := add_ns taidate (32184 * 1000000) in
  do e <- interpolate L t (as_mjd ttdate) r 5;
  let eops := snd e in
  if negb (Z.eqb (fst e) 0) then Ok (fst e, o)
  else
    do xlod <- rd (r_lod eops);
    let (X, Y) := xy06 S mjd0_jd (as_mjd ttdate) in
    let s := s06 S mjd0_jd (as_mjd ttdate) X Y in
    do dx <- rd (r_dx eops);
    do dy <- rd (r_dy eops);
    let rc2i := c2ixys_e S (X + arcsec2rad S dx) (Y + arcsec2rad S dy) s in
    let (utc, utc_mjd) := tai2utc S taidate in
    do dut <- rd (r_dut eops);
    let ut1 := utc + dut / 86400 + inject_Z utc_mjd in
    let era := era00 S mjd0_jd ut1 in
    let sp := sp00 S mjd0_jd (as_mjd ttdate) in
    do xp <- rd (r_xp eops);
    do yp <- rd (r_yp eops);
    Ok (0%Z, Frame rc2i era (pom00_e S (arcsec2rad S xp) (arcsec2rad S yp) sp) xlod).

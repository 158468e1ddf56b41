(** * Model of /repo/src/hct/src/hct_solver.rs *)
From Coq Require Import ZArith Bool String List.
From Verif Require Import F64 MathUtils ColorUtils ViewingConditions Cam16.
Import ListNotations.
Open Scope string_scope.
Open Scope f64_scope.

(** hct_solver.rs 11-27. *)
Definition SCALED_DISCOUNT_FROM_LINRGB : mat3 :=
  ((dec "0.001200833568784504", dec "0.002389694492170889", dec "0.0002795742885861124"),
   (dec "0.0005891086651375999", dec "0.0029785502573438758", dec "0.0003270666104008398"),
   (dec "0.00010146692491640572", dec "0.0005364214359186694", dec "0.0032979401770712076")).

(** hct_solver.rs 29-33. *)
Definition LINRGB_FROM_SCALED_DISCOUNT : mat3 :=
  ((dec "1373.2198709594231", dec "-1100.4251190754821", dec "-7.278681089101213"),
   (dec "-271.815969077903", dec "559.6580465940733", dec "-32.46047482791194"),
   (dec "1.9622899599665666", dec "-57.173814538844006", dec "308.7233197812385")).

(** hct_solver.rs 35-37: [_y_from_linrgb]. *)
Definition Y_FROM_LINRGB : vec3 := (dec "0.2126", dec "0.7152", dec "0.0722").

(** hct_solver.rs 39-297: [_critical_planes] (255 entries). *)
Definition critical_planes : list f64 := [
   dec "0.015176349177441876"; dec "0.045529047532325624"; dec "0.07588174588720938"; dec "0.10623444424209313";
   dec "0.13658714259697685"; dec "0.16693984095186062"; dec "0.19729253930674434"; dec "0.2276452376616281";
   dec "0.2579979360165119"; dec "0.28835063437139563"; dec "0.3188300904430532"; dec "0.350925934958123";
   dec "0.3848314933096426"; dec "0.42057480301049466"; dec "0.458183274052838"; dec "0.4976837250274023";
   dec "0.5391024159806381"; dec "0.5824650784040898"; dec "0.6277969426914107"; dec "0.6751227633498623";
   dec "0.7244668422128921"; dec "0.775853049866786"; dec "0.829304845476233"; dec "0.8848452951698498";
   dec "0.942497089126609"; dec "1.0022825574869039"; dec "1.0642236851973577"; dec "1.1283421258858297";
   dec "1.1946592148522128"; dec "1.2631959812511864"; dec "1.3339731595349034"; dec "1.407011200216447";
   dec "1.4823302800086415"; dec "1.5599503113873272"; dec "1.6398909516233677"; dec "1.7221716113234105";
   dec "1.8068114625156377"; dec "1.8938294463134073"; dec "1.9832442801866852"; dec "2.075074464868551";
   dec "2.1693382909216234"; dec "2.2660538449872063"; dec "2.36523901573795"; dec "2.4669114995532007";
   dec "2.5710888059345764"; dec "2.6777882626779785"; dec "2.7870270208169257"; dec "2.898822059350997";
   dec "3.0131901897720907"; dec "3.1301480604002863"; dec "3.2497121605402226"; dec "3.3718988244681087";
   dec "3.4967242352587946"; dec "3.624204428461639"; dec "3.754355295633311"; dec "3.887192587735158";
   dec "4.022731918402185"; dec "4.160988767090289"; dec "4.301978482107941"; dec "4.445716283538092";
   dec "4.592217266055746"; dec "4.741496401646282"; dec "4.893568542229298"; dec "5.048448422192488";
   dec "5.20615066083972"; dec "5.3666897647573375"; dec "5.5300801301023865"; dec "5.696336044816294";
   dec "5.865471690767354"; dec "6.037501145825082"; dec "6.212438385869475"; dec "6.390297286737924";
   dec "6.571091626112461"; dec "6.7548350853498045"; dec "6.941541251256611"; dec "7.131223617812143";
   dec "7.323895587840543"; dec "7.5195704746346665"; dec "7.7182615035334345"; dec "7.919981813454504";
   dec "8.124744458384042"; dec "8.332562408825165"; dec "8.543448553206703"; dec "8.757415699253682";
   dec "8.974476575321063"; dec "9.194643831691977"; dec "9.417930041841839"; dec "9.644347703669503";
   dec "9.873909240696694"; dec "10.106627003236781"; dec "10.342513269534024"; dec "10.58158024687427";
   dec "10.8238400726681"; dec "11.069304815507364"; dec "11.317986476196008"; dec "11.569896988756009";
   dec "11.825048221409341"; dec "12.083451977536606"; dec "12.345119996613247"; dec "12.610063955123938";
   dec "12.878295467455942"; dec "13.149826086772048"; dec "13.42466730586372"; dec "13.702830557985108";
   dec "13.984327217668513"; dec "14.269168601521828"; dec "14.55736596900856"; dec "14.848930523210871";
   dec "15.143873411576273"; dec "15.44220572664832"; dec "15.743938506781891"; dec "16.04908273684337";
   dec "16.35764934889634"; dec "16.66964922287304"; dec "16.985093187232053"; dec "17.30399201960269";
   dec "17.62635644741625"; dec "17.95219714852476"; dec "18.281524751807332"; dec "18.614349837764564";
   dec "18.95068293910138"; dec "19.290534541298456"; dec "19.633915083172692"; dec "19.98083495742689";
   dec "20.331304511189067"; dec "20.685334046541502"; dec "21.042933821039977"; dec "21.404114048223256";
   dec "21.76888489811322"; dec "22.137256497705877"; dec "22.50923893145328"; dec "22.884842241736916";
   dec "23.264076429332462"; dec "23.6469514538663"; dec "24.033477234264016"; dec "24.42366364919083";
   dec "24.817520537484558"; dec "25.21505769858089"; dec "25.61628489293138"; dec "26.021211842414342";
   dec "26.429848230738664"; dec "26.842203703840827"; dec "27.258287870275353"; dec "27.678110301598522";
   dec "28.10168053274597"; dec "28.529008062403893"; dec "28.96010235337422"; dec "29.39497283293396";
   dec "29.83362889318845"; dec "30.276079891419332"; dec "30.722335150426627"; dec "31.172403958865512";
   dec "31.62629557157785"; dec "32.08401920991837"; dec "32.54558406207592"; dec "33.010999283389665";
   dec "33.4802739966603"; dec "33.953417292456834"; dec "34.430438229418264"; dec "34.911345834551085";
   dec "35.39614910352207"; dec "35.88485700094671"; dec "36.37747846067349"; dec "36.87402238606382";
   dec "37.37449765026789"; dec "37.87891309649659"; dec "38.38727753828926"; dec "38.89959975977785";
   dec "39.41588851594697"; dec "39.93615253289054"; dec "40.460400508064545"; dec "40.98864111053629";
   dec "41.520882981230194"; dec "42.05713473317016"; dec "42.597404951718396"; dec "43.141702194811224";
   dec "43.6900349931913"; dec "44.24241185063697"; dec "44.798841244188324"; dec "45.35933162437017";
   dec "45.92389141541209"; dec "46.49252901546552"; dec "47.065252796817916"; dec "47.64207110610409";
   dec "48.22299226451468"; dec "48.808024568002054"; dec "49.3971762874833"; dec "49.9904556690408";
   dec "50.587870934119984"; dec "51.189430279724725"; dec "51.79514187861014"; dec "52.40501387947288";
   dec "53.0190544071392"; dec "53.637271562750364"; dec "54.259673423945976"; dec "54.88626804504493";
   dec "55.517063457223934"; dec "56.15206766869424"; dec "56.79128866487574"; dec "57.43473440856916";
   dec "58.08241284012621"; dec "58.734331877617365"; dec "59.39049941699807"; dec "60.05092333227251";
   dec "60.715611475655585"; dec "61.38457167773311"; dec "62.057811747619894"; dec "62.7353394731159";
   dec "63.417162620860914"; dec "64.10328893648692"; dec "64.79372614476921"; dec "65.48848194977529";
   dec "66.18756403501224"; dec "66.89098006357258"; dec "67.59873767827808"; dec "68.31084450182222";
   dec "69.02730813691093"; dec "69.74813616640164"; dec "70.47333615344107"; dec "71.20291564160104";
   dec "71.93688215501312"; dec "72.67524319850172"; dec "73.41800625771542"; dec "74.16517879925733";
   dec "74.9167682708136"; dec "75.67278210128072"; dec "76.43322770089146"; dec "77.1981124613393";
   dec "77.96744375590167"; dec "78.74122893956174"; dec "79.51947534912904"; dec "80.30219030335869";
   dec "81.08938110306934"; dec "81.88105503125999"; dec "82.67721935322541"; dec "83.4778813166706";
   dec "84.28304815182372"; dec "85.09272707154808"; dec "85.90692527145302"; dec "86.72564993000343";
   dec "87.54890820862819"; dec "88.3767072518277"; dec "89.2090541872801"; dec "90.04595612594655";
   dec "90.88742016217518"; dec "91.73345337380438"; dec "92.58406282226491"; dec "93.43925555268066";
   dec "94.29903859396902"; dec "95.16341895893969"; dec "96.03240364439274"; dec "96.9059996312159";
   dec "97.78421388448044"; dec "98.6670533535366"; dec "99.55452497210776"].

(** hct_solver.rs 303-305: [_sanitize_radians]. *)
Definition sanitize_radians (angle : f64) : f64 :=
  frem (angle + PI64 * dec "8.0") (PI64 * dec "2.0").

(** hct_solver.rs 351-355: [_are_in_cyclic_order]. *)
Definition are_in_cyclic_order (a b c : f64) : bool :=
  let delta_ab := sanitize_radians (b - a) in
  let delta_ac := sanitize_radians (c - a) in
  delta_ab <? delta_ac.

(** hct_solver.rs 361-363: [_intercept]. *)
Definition intercept (source mid target : f64) : f64 :=
  (mid - source) / (target - source).

(** hct_solver.rs 365-372: [_lerp_point]. *)
Definition lerp_point (source : vec3) (t : f64) (target : vec3) : vec3 :=
  (v0 source + (v0 target - v0 source) * t,
   v1 source + (v1 target - v1 source) * t,
   v2 source + (v2 target - v2 source) * t).

(** [v[axis]] for axis in 0..3 (hct_solver.rs 520). *)
Definition vget (v : vec3) (axis : Z) : f64 :=
  if (axis =? 0)%Z then v0 v else if (axis =? 1)%Z then v1 v else v2 v.

(** hct_solver.rs 382-390: [_set_coordinate]. *)
Definition set_coordinate (source : vec3) (coordinate : f64) (target : vec3) (axis : Z) : vec3 :=
  let t := intercept (vget source axis) coordinate (vget target axis) in
  lerp_point source t target.

(** hct_solver.rs 392-394: [_is_bounded]. *)
Definition is_bounded (x : f64) : bool := (dec "0.0" <=? x) && (x <=? dec "100.0").

Definition no_vertex : vec3 := (dec "-1.0", dec "-1.0", dec "-1.0").

(** hct_solver.rs 404-451: [_nth_vertex]. *)
Definition nth_vertex (y : f64) (n : Z) : vec3 :=
  let k_r := v0 Y_FROM_LINRGB in
  let k_g := v1 Y_FROM_LINRGB in
  let k_b := v2 Y_FROM_LINRGB in
  let coord_a := if (Z.rem n 4 <=? 1)%Z then dec "0.0" else dec "100.0" in
  let coord_b := if (Z.rem n 2 =? 0)%Z then dec "0.0" else dec "100.0" in
  if (n <? 4)%Z then
    let g := coord_a in
    let b := coord_b in
    let r := (y - g * k_g - b * k_b) / k_r in
    if is_bounded r then (r, g, b) else no_vertex
  else if (n <? 8)%Z then
    let b := coord_a in
    let r := coord_b in
    let g := (y - r * k_r - b * k_b) / k_g in
    if is_bounded g then (r, g, b) else no_vertex
  else
    let r := coord_a in
    let g := coord_b in
    let b := (y - r * k_r - g * k_g) / k_b in
    if is_bounded b then (r, g, b) else no_vertex.

(** hct_solver.rs 493-500: [_midpoint]. *)
Definition midpoint (a b : vec3) : vec3 :=
  ((v0 a + v0 b) / dec "2.0", (v1 a + v1 b) / dec "2.0", (v2 a + v2 b) / dec "2.0").

(** hct_solver.rs 502-504 and 506-508. *)
Definition critical_plane_below (x : f64) : Z := to_i64 (ffloor (x - dec "0.5")).
Definition critical_plane_above (x : f64) : Z := to_i64 (fceil (x - dec "0.5")).

Section WithLibm.
Context {lm : Libm}.

(** hct_solver.rs 313-324: [_true_delinearized]. *)
Definition true_delinearized (rgb_component : f64) : f64 :=
  let normalized := rgb_component / dec "100.0" in
  let d :=
    if normalized <=? dec "0.0031308" then normalized * dec "12.92"
    else dec "1.055" * powf normalized (dec "1.0" / dec "2.4") - dec "0.055" in
  d * dec "255.0".

(** hct_solver.rs 326-329: [_chromatic_adaptation]. *)
Definition chromatic_adaptation (component : f64) : f64 :=
  let af := powf (fabs component) (dec "0.42") in
  of_Z (signum component) * dec "400.0" * af / (af + dec "27.13").

(** hct_solver.rs 333-349: [_hue_of]. *)
Definition hue_of (linrgb : vec3) : f64 :=
  let scaled_discount := matrix_multiply linrgb SCALED_DISCOUNT_FROM_LINRGB in
  let r_a := chromatic_adaptation (v0 scaled_discount) in
  let g_a := chromatic_adaptation (v1 scaled_discount) in
  let b_a := chromatic_adaptation (v2 scaled_discount) in
  let a := (dec "11.0" * r_a + dec "-12.0" * g_a + b_a) / dec "11.0" in
  let b := (r_a + g_a - dec "2.0" * b_a) / dec "9.0" in
  atan2f b a.

(** State of the loop of [_bisect_to_segment]. *)
Record seg := {
  s_left : vec3; s_right : vec3; s_left_hue : f64; s_right_hue : f64;
  s_initialized : bool; s_uncut : bool
}.

(** hct_solver.rs 465-489: one iteration of the loop of [_bisect_to_segment]. *)
Definition segment_step (y target_hue : f64) (s : seg) (n : Z) : seg :=
  let mid := nth_vertex y n in
  if v0 mid <? dec "0.0" then s else
  let mid_hue := hue_of mid in
  if negb (s_initialized s) then
    {| s_left := mid; s_right := mid; s_left_hue := mid_hue; s_right_hue := mid_hue;
       s_initialized := true; s_uncut := s_uncut s |}
  else if s_uncut s || are_in_cyclic_order (s_left_hue s) mid_hue (s_right_hue s) then
    if are_in_cyclic_order (s_left_hue s) target_hue mid_hue then
      {| s_left := s_left s; s_right := mid; s_left_hue := s_left_hue s; s_right_hue := mid_hue;
         s_initialized := true; s_uncut := false |}
    else
      {| s_left := mid; s_right := s_right s; s_left_hue := mid_hue; s_right_hue := s_right_hue s;
         s_initialized := true; s_uncut := false |}
  else s.

(** hct_solver.rs 458-491: [_bisect_to_segment]. *)
Definition bisect_to_segment (y target_hue : f64) : vec3 * vec3 :=
  let s := fold_left (segment_step y target_hue) [0; 1; 2; 3; 4; 5; 6; 7; 8; 9; 10; 11]%Z
    {| s_left := no_vertex; s_right := no_vertex; s_left_hue := dec "0.0"; s_right_hue := dec "0.0";
       s_initialized := false; s_uncut := true |} in
  (s_left s, s_right s).

(** hct_solver.rs 533-551: the inner loop of [_bisect_to_limit] ([fuel] is the 8 of line 533).
    [Panic] stands for i64 overflow (lines 534, 537) and for an index outside the table (line 538).
    Returns (lft, left_hue, rgt). *)
Fixpoint limit_loop (fuel : nat) (target_hue : f64) (axis : Z)
    (lft : vec3) (left_hue : f64) (rgt : vec3) (l_plane r_plane : Z) : res (vec3 * f64 * vec3) :=
  match fuel with
  | O => Ok (lft, left_hue, rgt)
  | S fuel' =>
      do diff <- chk (r_plane - l_plane);
      do adiff <- chk (Z.abs diff);
      if (adiff <=? 1)%Z then Ok (lft, left_hue, rgt)
      else
        do sum <- chk (l_plane + r_plane);
        let m_plane := to_i64 (ffloor (of_Z sum / dec "2.0")) in
        do mid_plane_coordinate <- index critical_planes m_plane;
        let mid := set_coordinate lft mid_plane_coordinate rgt axis in
        let mid_hue := hue_of mid in
        if are_in_cyclic_order left_hue target_hue mid_hue
        then limit_loop fuel' target_hue axis lft left_hue mid l_plane m_plane
        else limit_loop fuel' target_hue axis mid mid_hue rgt m_plane r_plane
  end.

(** hct_solver.rs 520-553: one iteration of the outer loop of [_bisect_to_limit]. *)
Definition limit_axis (target_hue : f64) (axis : Z) (st : vec3 * f64 * vec3) : res (vec3 * f64 * vec3) :=
  let '(lft, left_hue, rgt) := st in
  if vget lft axis <>? vget rgt axis then
    if vget lft axis <? vget rgt axis then
      limit_loop 8 target_hue axis lft left_hue rgt
        (critical_plane_below (true_delinearized (vget lft axis)))
        (critical_plane_above (true_delinearized (vget rgt axis)))
    else
      limit_loop 8 target_hue axis lft left_hue rgt
        (critical_plane_above (true_delinearized (vget lft axis)))
        (critical_plane_below (true_delinearized (vget rgt axis)))
  else Ok st.

(** hct_solver.rs 515-555: [_bisect_to_limit]. *)
Definition bisect_to_limit (y target_hue : f64) : res vec3 :=
  let segment := bisect_to_segment y target_hue in
  let lft := fst segment in
  let left_hue := hue_of lft in
  let rgt := snd segment in
  do s0 <- limit_axis target_hue 0 (lft, left_hue, rgt);
  do s1 <- limit_axis target_hue 1 s0;
  do s2 <- limit_axis target_hue 2 s1;
  let '(lft, _, rgt) := s2 in
  Ok (midpoint lft rgt).

(** hct_solver.rs 557-561: [_inverse_chromatic_adaptation]. *)
Definition inverse_chromatic_adaptation (adapted : f64) : f64 :=
  let adapted_abs := fabs adapted in
  let base := fmax (dec "0.0") (dec "27.13" * adapted_abs / (dec "400.0" - adapted_abs)) in
  of_Z (signum adapted) * powf base (dec "1.0" / dec "0.42").

(** hct_solver.rs 585-614: the linear RGB computed in one round from [j]. *)
Definition j_linrgb (vc : viewing_conditions) (t_inner_coeff p1 h_sin h_cos chroma j : f64) : vec3 :=
  let j_normalized := j / dec "100.0" in
  let alpha :=
    if (chroma =? dec "0.0") || (j =? dec "0.0") then dec "0.0"
    else chroma / fsqrt j_normalized in
  let t := powf (alpha * t_inner_coeff) (dec "1.0" / dec "0.9") in
  let ac := vc_aw vc * powf j_normalized (dec "1.0" / vc_c vc / vc_z vc) in
  let p2 := ac / vc_nbb vc in
  let gamma := dec "23.0" * (p2 + dec "0.305") * t /
               (dec "23.0" * p1 + dec "11.0" * t * h_cos + dec "108.0" * t * h_sin) in
  let a := gamma * h_cos in
  let b := gamma * h_sin in
  let r_a := (dec "460.0" * p2 + dec "451.0" * a + dec "288.0" * b) / dec "1403.0" in
  let g_a := (dec "460.0" * p2 - dec "891.0" * a - dec "261.0" * b) / dec "1403.0" in
  let b_a := (dec "460.0" * p2 - dec "220.0" * a - dec "6300.0" * b) / dec "1403.0" in
  let r_cscaled := inverse_chromatic_adaptation r_a in
  let g_cscaled := inverse_chromatic_adaptation g_a in
  let b_cscaled := inverse_chromatic_adaptation b_a in
  matrix_multiply (r_cscaled, g_cscaled, b_cscaled) LINRGB_FROM_SCALED_DISCOUNT.

(** hct_solver.rs 581-638: the Newton loop; [rounds] counts the rounds left (5 at the start), so
    [iteration_round == 4] is [rounds = 1]. *)
Fixpoint j_loop (rounds : nat) (vc : viewing_conditions) (t_inner_coeff p1 h_sin h_cos chroma y j : f64) : Z :=
  match rounds with
  | O => 0%Z
  | S rounds' =>
      let linrgb := j_linrgb vc t_inner_coeff p1 h_sin h_cos chroma j in
      if (v0 linrgb <? dec "0.0") || (v1 linrgb <? dec "0.0") || (v2 linrgb <? dec "0.0") then 0%Z else
      let k_r := v0 Y_FROM_LINRGB in
      let k_g := v1 Y_FROM_LINRGB in
      let k_b := v2 Y_FROM_LINRGB in
      let fnj := k_r * v0 linrgb + k_g * v1 linrgb + k_b * v2 linrgb in
      if fnj <=? dec "0.0" then 0%Z else
      if (match rounds' with O => true | _ => false end) || (fabs (fnj - y) <? dec "0.002") then
        if (v0 linrgb >? dec "100.01") || (v1 linrgb >? dec "100.01") || (v2 linrgb >? dec "100.01")
        then 0%Z else argb_from_linrgb linrgb
      else
        j_loop rounds' vc t_inner_coeff p1 h_sin h_cos chroma y
          (j - (fnj - y) * j / (dec "2.0" * fnj))
  end.

(** hct_solver.rs 567-639: [_find_result_by_j]. *)
Definition find_result_by_j (hue_radians chroma y : f64) : res Z :=
  let j := fsqrt y * dec "11.0" in
  do vc <- s_rgb;
  let t_inner_coeff := dec "1.0" / powf (dec "1.64" - powf (dec "0.29") (vc_n vc)) (dec "0.73") in
  let e_hue := dec "0.25" * (cosf (hue_radians + dec "2.0") + dec "3.8") in
  let p1 := e_hue * (dec "50000.0" / dec "13.0") * vc_n_c vc * vc_ncb vc in
  let h_sin := sinf hue_radians in
  let h_cos := cosf hue_radians in
  Ok (j_loop 5 vc t_inner_coeff p1 h_sin h_cos chroma y j).

(** hct_solver.rs 649-662: [solve_to_int]. *)
Definition solve_to_int (hue_degrees chroma lstar : f64) : res Z :=
  if (chroma <? dec "0.0001") || (lstar <? dec "0.0001") || (lstar >? dec "99.9999")
  then Ok (argb_from_lstar lstar) else
  let hue_degrees := sanitize_degrees_double hue_degrees in
  let hue_radians := hue_degrees / dec "180.0" * PI64 in
  let y := y_from_lstar lstar in
  do exact_answer <- find_result_by_j hue_radians chroma y;
  if negb (exact_answer =? 0)%Z then Ok exact_answer else
  do linrgb <- bisect_to_limit y hue_radians;
  Ok (argb_from_linrgb linrgb).

(** hct_solver.rs 672-674: [solve_to_cam]. *)
Definition solve_to_cam (hue_degrees chroma lstar : f64) : res cam16 :=
  do argb <- solve_to_int hue_degrees chroma lstar; cam16_from_int argb.
End WithLibm.

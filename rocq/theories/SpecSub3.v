(* The subregions of region 3 for v(p,T): IAPWS SR5-05(2016), Tables 1, 2, 10 and
   the text of sections 4 and 5; written from the release, closed at shared borders. *)
From Coq Require Import Reals.
From Verif Require Import Types SpecReal.
Open Scope R_scope.

(* saturation temperature, Eq. (31) of the IF97 release, K *)
Definition if97_tsat (p : R) : R :=
  let b := sqrt (sqrt p) in
  let E := b^2 + -17.073846940092 * b + 14.915108613530 in
  let F := 1167.0521452767 * b^2 + 12020.824702470 * b + -4823.2657361591 in
  let G := -724213.16703206 * b^2 + -3232555.0322333 * b + 405113.40542057 in
  let D := 2 * G / (- F - sqrt (F^2 - 4 * E * G)) in
  (650.17534844798 + D - sqrt ((650.17534844798 + D)^2 - 4 * (-0.23855557567849 + 650.17534844798 * D))) / 2.

(* boundary temperatures, Eqs. (1), (2), (3), K *)
Definition T3ab (p : R) := 1547.93642129415 - 187.661219490113 * ln p + 21.3144632222113 * (ln p)^2
  - 1918.87498864292 / ln p + 918.419702359447 / (ln p)^2.
Definition T3cd (p : R) := 585.276966696349 + 2.78233532206915 * p - 0.0127283549295878 * p^2 + 0.000159090746562729 * p^3.
Definition T3ef (p : R) := 3.727888004 * (p - 22.064) + 647.096.
Definition T3gh (p : R) := -24928.4240900418 + 4281.43584791546 * p - 269.029173140130 * p^2 + 7.51608051114157 * p^3 - 0.0787105249910383 * p^4.
Definition T3ij (p : R) := 584.814781649163 - 0.616179320924617 * p + 0.260763050899562 * p^2 - 0.00587071076864459 * p^3 + 0.0000515308185433082 * p^4.
Definition T3jk (p : R) := 617.229772068439 - 7.70600270141675 * p + 0.697072596851896 * p^2 - 0.0157391839848015 * p^3 + 0.000137897492684194 * p^4.
Definition T3mn (p : R) := 535.339483742384 + 7.61978122720128 * p - 0.158365725441648 * p^2 + 0.00192871054508108 * p^3.
Definition T3op (p : R) := 969.461372400213 - 332.500170441278 * ln p + 64.2859598466067 * (ln p)^2
  + 773.845935768222 / ln p - 1523.13732937084 / (ln p)^2.
Definition T3qu (p : R) := 565.603648239126 + 5.29062258221222 * p - 0.102020639611016 * p^2 + 0.00122240301070145 * p^3.
Definition T3rx (p : R) := 584.561202520006 - 1.02961025163669 * p + 0.243293362700452 * p^2 - 0.00294905044740799 * p^3.
Definition T3uv (p : R) := 528.199646263062 + 8.90579602135307 * p - 0.222814134903755 * p^2 + 0.00286791682263697 * p^3.
Definition T3wx (p : R) := 7.28052609145380 + 97.3505869861952 * ln p + 14.7370491183191 * (ln p)^2
  + 329.196213998375 / ln p + 873.371668682417 / (ln p)^2.

(* psat(643.15 K), and the pressure at which the saturation line meets T3cd *)
Definition p643 : R := if97_psat 643.15.
Definition p3cd : R := 19.00881189173929.

(* [in_subregion s p T]: (p,T) lies in subregion s (Table 2; auxiliary subregions
   u..z of Table 10 for T3qu < T <= T3rx) *)
Definition in_subregion (s : subregion) (p T : R) : Prop :=
  match s with
  | sub_unset => False
  | sub_a => 40 <= p <= 100 /\ T <= T3ab p
  | sub_b => 40 <= p <= 100 /\ T3ab p <= T
  | sub_c => (p3cd <= p <= 40 /\ T <= T3cd p) \/ (p <= p3cd /\ T <= if97_tsat p)
  | sub_d => 25 <= p <= 40 /\ T3cd p <= T <= T3ab p
  | sub_e => 25 <= p <= 40 /\ T3ab p <= T <= T3ef p
  | sub_f => 25 <= p <= 40 /\ T3ef p <= T
  | sub_g => 23.5 <= p <= 25 /\ T3cd p <= T <= T3gh p
  | sub_h => 23 <= p <= 25 /\ T3gh p <= T <= T3ef p
  | sub_i => 23 <= p <= 25 /\ T3ef p <= T <= T3ij p
  | sub_j => 22.5 <= p <= 25 /\ T3ij p <= T <= T3jk p
  | sub_k => 20.5 <= p <= 25 /\ T3jk p <= T
  | sub_l => 22.5 <= p <= 23.5 /\ T3cd p <= T <= T3gh p
  | sub_m => 22.5 <= p <= 23 /\ T3gh p <= T <= T3mn p
  | sub_n => 22.5 <= p <= 23 /\ T3mn p <= T <= T3ef p
  | sub_o => 22.5 <= p <= 23 /\ T3ef p <= T <= T3op p
  | sub_p => 22.5 <= p <= 23 /\ T3op p <= T <= T3ij p
  | sub_q => p643 <= p <= 22.5 /\ T3cd p <= T <= T3qu p
  | sub_r => (p643 <= p <= 22.5 /\ T3rx p <= T <= T3jk p) \/ (20.5 <= p <= p643 /\ if97_tsat p <= T <= T3jk p)
  | sub_s => p3cd <= p <= p643 /\ T3cd p <= T <= if97_tsat p
  | sub_t => p <= 20.5 /\ if97_tsat p <= T
  | sub_u => (22.064 <= p <= 22.5 /\ T3qu p <= T <= T3uv p) \/
             (21.93161551 <= p <= 22.064 /\ T3qu p <= T <= T3uv p) \/
             (p643 <= p <= 21.93161551 /\ T3qu p <= T <= if97_tsat p)
  | sub_v => 22.11 <= p <= 22.5 /\ T3uv p <= T <= T3ef p
  | sub_w => 22.11 <= p <= 22.5 /\ T3ef p <= T <= T3wx p
  | sub_x => (22.064 <= p <= 22.5 /\ T3wx p <= T <= T3rx p) \/
             (21.90096265 <= p <= 22.064 /\ T3wx p <= T <= T3rx p) \/
             (p643 <= p <= 21.90096265 /\ if97_tsat p <= T <= T3rx p)
  | sub_y => (22.064 <= p <= 22.11 /\ T3uv p <= T <= T3ef p) \/ (21.93161551 <= p <= 22.064 /\ T3uv p <= T <= if97_tsat p)
  | sub_z => (22.064 <= p <= 22.11 /\ T3ef p <= T <= T3wx p) \/ (21.90096265 <= p <= 22.064 /\ if97_tsat p <= T <= T3wx p)
  end.

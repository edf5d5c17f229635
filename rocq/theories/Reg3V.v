(* Generated by tools/rs2v.py from src/r3/region3_v_pT.rs.
   Every definition cites the source lines it models; see tools/rs2v.py for the
   translation rules (mutable variables become let-rebinding, match on constants
   becomes an if-chain in source order, for loops over ranges become fold_left). *)
From Coq Require Import ZArith List Bool String.
From Verif Require Import Num Types R4Sat Reg3Sub.
Import ListNotations.
Open Scope num_scope.

Section Model.
Context {N : Arith}.

(* src/r3/region3_v_pT.rs:16-16  I3ab *)
Definition T_atRegionBoundary_I3ab : list Z :=
  [0%Z; 0%Z; 1%Z; 2%Z; (-1)%Z; (-2)%Z].

(* src/r3/region3_v_pT.rs:17-17  I3cd *)
Definition T_atRegionBoundary_I3cd : list Z :=
  [0%Z; 0%Z; 1%Z; 2%Z; 3%Z].

(* src/r3/region3_v_pT.rs:18-18  I3gh *)
Definition T_atRegionBoundary_I3gh : list Z :=
  [0%Z; 0%Z; 1%Z; 2%Z; 3%Z; 4%Z].

(* src/r3/region3_v_pT.rs:19-19  I3ij *)
Definition T_atRegionBoundary_I3ij : list Z :=
  [0%Z; 0%Z; 1%Z; 2%Z; 3%Z; 4%Z].

(* src/r3/region3_v_pT.rs:20-20  I3jk *)
Definition T_atRegionBoundary_I3jk : list Z :=
  [0%Z; 0%Z; 1%Z; 2%Z; 3%Z; 4%Z].

(* src/r3/region3_v_pT.rs:21-21  I3mn *)
Definition T_atRegionBoundary_I3mn : list Z :=
  [0%Z; 0%Z; 1%Z; 2%Z; 3%Z].

(* src/r3/region3_v_pT.rs:22-22  I3op *)
Definition T_atRegionBoundary_I3op : list Z :=
  [0%Z; 0%Z; 1%Z; 2%Z; (-1)%Z; (-2)%Z].

(* src/r3/region3_v_pT.rs:23-23  I3qu *)
Definition T_atRegionBoundary_I3qu : list Z :=
  [0%Z; 0%Z; 1%Z; 2%Z; 3%Z].

(* src/r3/region3_v_pT.rs:24-24  I3rx *)
Definition T_atRegionBoundary_I3rx : list Z :=
  [0%Z; 0%Z; 1%Z; 2%Z; 3%Z].

(* src/r3/region3_v_pT.rs:25-25  I3uv *)
Definition T_atRegionBoundary_I3uv : list Z :=
  [0%Z; 0%Z; 1%Z; 2%Z; 3%Z].

(* src/r3/region3_v_pT.rs:26-26  I3wx *)
Definition T_atRegionBoundary_I3wx : list Z :=
  [0%Z; 0%Z; 1%Z; 2%Z; (-1)%Z; (-2)%Z].

(* src/r3/region3_v_pT.rs:28-35  n3ab *)
Definition T_atRegionBoundary_n3ab : list num :=
  [#0.0; #0.154793642129415e4; #(-0.187661219490113e3); #0.213144632222113e2; #(-0.191887498864292e4); #0.918419702359447e3].

(* src/r3/region3_v_pT.rs:36-36  n3cd *)
Definition T_atRegionBoundary_n3cd : list num :=
  [#0.0; #0.585276966696349e3; #0.278233532206915e1; #(-0.127283549295878e-1); #0.159090746562729e-3].

(* src/r3/region3_v_pT.rs:37-44  n3gh *)
Definition T_atRegionBoundary_n3gh : list num :=
  [#0.0; #(-0.249284240900418e5); #0.428143584791546e4; #(-0.269029173140130e3); #0.751608051114157e1; #(-0.787105249910383e-1)].

(* src/r3/region3_v_pT.rs:45-52  n3ij *)
Definition T_atRegionBoundary_n3ij : list num :=
  [#0.0; #0.584814781649163e3; #(-0.616179320924617); #0.260763050899562; #(-0.587071076864459e-2); #0.515308185433082e-4].

(* src/r3/region3_v_pT.rs:53-60  n3jk *)
Definition T_atRegionBoundary_n3jk : list num :=
  [#0.0; #0.617229772068439e3; #(-0.770600270141675e1); #0.697072596851896; #(-0.157391839848015e-1); #0.137897492684194e-3].

(* src/r3/region3_v_pT.rs:61-61  n3mn *)
Definition T_atRegionBoundary_n3mn : list num :=
  [#0.0; #0.535339483742384e3; #0.761978122720128e1; #(-0.158365725441648); #0.192871054508108e-2].

(* src/r3/region3_v_pT.rs:62-69  n3op *)
Definition T_atRegionBoundary_n3op : list num :=
  [#0.0; #0.969461372400213e3; #(-0.332500170441278e3); #0.642859598466067e2; #0.773845935768222e3; #(-0.152313732937084e4)].

(* src/r3/region3_v_pT.rs:70-70  n3qu *)
Definition T_atRegionBoundary_n3qu : list num :=
  [#0.0; #0.565603648239126e3; #0.529062258221222e1; #(-0.102020639611016); #0.122240301070145e-2].

(* src/r3/region3_v_pT.rs:71-71  n3rx *)
Definition T_atRegionBoundary_n3rx : list num :=
  [#0.0; #0.584561202520006e3; #(-0.102961025163669e1); #0.243293362700452; #(-0.294905044740799e-2)].

(* src/r3/region3_v_pT.rs:72-72  n3uv *)
Definition T_atRegionBoundary_n3uv : list num :=
  [#0.0; #0.528199646263062e3; #0.890579602135307e1; #(-0.222814134903755); #0.286791682263697e-2].

(* src/r3/region3_v_pT.rs:73-80  n3wx *)
Definition T_atRegionBoundary_n3wx : list num :=
  [#0.0; #0.728052609145380e1; #0.973505869861952e2; #0.147370491183191e2; #0.329196213998375e3; #0.873371668682417e3].

(* src/r3/region3_v_pT.rs:15-145 *)
Definition T_atRegionBoundary (p : num) (boundary : string) : num :=
  let T := #0.0 in
  if String.eqb boundary "3ab"%string then
    let T := fold_left (fun T i =>
        T + ((nth i T_atRegionBoundary_n3ab (#0.0)) * (powi (nln p) (nth i T_atRegionBoundary_I3ab 0%Z))))
      (seq 1 5) T in
    T
  else if String.eqb boundary "3op"%string then
    let T := fold_left (fun T i =>
        T + ((nth i T_atRegionBoundary_n3op (#0.0)) * (powi (nln p) (nth i T_atRegionBoundary_I3op 0%Z))))
      (seq 1 5) T in
    T
  else if String.eqb boundary "3ef"%string then
    (#3.727888004 * (p - #22.064)) + #647.096
  else if String.eqb boundary "3cd"%string then
    let T := fold_left (fun T i =>
        T + ((nth i T_atRegionBoundary_n3cd (#0.0)) * (powi p (nth i T_atRegionBoundary_I3cd 0%Z))))
      (seq 1 4) T in
    T
  else if String.eqb boundary "3gh"%string then
    let T := fold_left (fun T i =>
        T + ((nth i T_atRegionBoundary_n3gh (#0.0)) * (powi p (nth i T_atRegionBoundary_I3gh 0%Z))))
      (seq 1 5) T in
    T
  else if String.eqb boundary "3ij"%string then
    let T := fold_left (fun T i =>
        T + ((nth i T_atRegionBoundary_n3ij (#0.0)) * (powi p (nth i T_atRegionBoundary_I3ij 0%Z))))
      (seq 1 5) T in
    T
  else if String.eqb boundary "3jk"%string then
    let T := fold_left (fun T i =>
        T + ((nth i T_atRegionBoundary_n3jk (#0.0)) * (powi p (nth i T_atRegionBoundary_I3jk 0%Z))))
      (seq 1 5) T in
    T
  else if String.eqb boundary "3mn"%string then
    let T := fold_left (fun T i =>
        T + ((nth i T_atRegionBoundary_n3mn (#0.0)) * (powi p (nth i T_atRegionBoundary_I3mn 0%Z))))
      (seq 1 4) T in
    T
  else if String.eqb boundary "3qu"%string then
    let T := fold_left (fun T i =>
        T + ((nth i T_atRegionBoundary_n3qu (#0.0)) * (powi p (nth i T_atRegionBoundary_I3qu 0%Z))))
      (seq 1 4) T in
    T
  else if String.eqb boundary "3rx"%string then
    let T := fold_left (fun T i =>
        T + ((nth i T_atRegionBoundary_n3rx (#0.0)) * (powi p (nth i T_atRegionBoundary_I3rx 0%Z))))
      (seq 1 4) T in
    T
  else if String.eqb boundary "3uv"%string then
    let T := fold_left (fun T i =>
        T + ((nth i T_atRegionBoundary_n3uv (#0.0)) * (powi p (nth i T_atRegionBoundary_I3uv 0%Z))))
      (seq 1 4) T in
    T
  else if String.eqb boundary "3wx"%string then
    let T := fold_left (fun T i =>
        T + ((nth i T_atRegionBoundary_n3wx (#0.0)) * (powi (nln p) (nth i T_atRegionBoundary_I3wx 0%Z))))
      (seq 1 5) T in
    T
  else T.

(* src/r3/region3_v_pT.rs:151-185 *)
Definition pT2v_sat_reg3 (p : num) (T : num) (x : num) : num :=
  let v := #0.0 in
  let subRegion := sub_unset in
  let subRegion :=
    if x =? #0.0 then
      if p <? #19.0088 then
        sub_c
      else if p <? #21.0434 then
        sub_s
      else if p <? #21.9316 then
        sub_u
      else sub_y
    else if p <? #20.5 then
      sub_t
    else if p <? #21.0434 then
      sub_r
    else if p <? #21.9009 then
      sub_x
    else sub_z in
  pT2v_3subreg p T subRegion.

(* src/r3/region3_v_pT.rs:188-392 *)
Definition sub_region3_pT (p : num) (T : num) : subregion :=
  let subRegion := sub_unset in
  if (p >? #40.0) && (p <=? #100.0) then
    let tB := T_atRegionBoundary p ("3ab"%string) in
    if T >? tB then
      sub_b
    else sub_a
  else 
  if p >? #25.0 then
    let tBab := T_atRegionBoundary p ("3ab"%string) in
    let tBcd := T_atRegionBoundary p ("3cd"%string) in
    let tBef := T_atRegionBoundary p ("3ef"%string) in
    if T <=? tBcd then
      sub_c
    else if T <=? tBab then
      sub_d
    else if T <=? tBef then
      sub_e
    else sub_f
  else 
  if p >? #23.5 then
    let tBcd := T_atRegionBoundary p ("3cd"%string) in
    let tBef := T_atRegionBoundary p ("3ef"%string) in
    let tBgh := T_atRegionBoundary p ("3gh"%string) in
    let tBij := T_atRegionBoundary p ("3ij"%string) in
    let tBjk := T_atRegionBoundary p ("3jk"%string) in
    if T <=? tBcd then
      sub_c
    else if T <=? tBgh then
      sub_g
    else if T <=? tBef then
      sub_h
    else if T <=? tBij then
      sub_i
    else if T <=? tBjk then
      sub_j
    else sub_k
  else 
  if p >? #23.0 then
    let tBcd := T_atRegionBoundary p ("3cd"%string) in
    let tBef := T_atRegionBoundary p ("3ef"%string) in
    let tBgh := T_atRegionBoundary p ("3gh"%string) in
    let tBij := T_atRegionBoundary p ("3ij"%string) in
    let tBjk := T_atRegionBoundary p ("3jk"%string) in
    if T <=? tBcd then
      sub_c
    else if T <=? tBgh then
      sub_l
    else if T <=? tBef then
      sub_h
    else if T <=? tBij then
      sub_i
    else if T <=? tBjk then
      sub_j
    else sub_k
  else 
  if p >? #22.5 then
    let tBcd := T_atRegionBoundary p ("3cd"%string) in
    let tBef := T_atRegionBoundary p ("3ef"%string) in
    let tBgh := T_atRegionBoundary p ("3gh"%string) in
    let tBij := T_atRegionBoundary p ("3ij"%string) in
    let tBjk := T_atRegionBoundary p ("3jk"%string) in
    let tBmn := T_atRegionBoundary p ("3mn"%string) in
    let tBop := T_atRegionBoundary p ("3op"%string) in
    if T <=? tBcd then
      sub_c
    else if T <=? tBgh then
      sub_l
    else if T <=? tBmn then
      sub_m
    else if T <=? tBef then
      sub_n
    else if T <=? tBop then
      sub_o
    else if T <=? tBij then
      sub_p
    else if T <=? tBjk then
      sub_j
    else sub_k
  else 
  let p_sat := p_saturation (#643.15) in
  if p >? p_sat then
    let tBcd := T_atRegionBoundary p ("3cd"%string) in
    let tBqu := T_atRegionBoundary p ("3qu"%string) in
    let tBrx := T_atRegionBoundary p ("3rx"%string) in
    let tBjk := T_atRegionBoundary p ("3jk"%string) in
    let k1 := fun (subRegion : subregion) =>
      if (T >? tBrx) && (T <=? tBjk) then
        sub_r
      else 
      let subRegion :=
        if T >? tBjk then
          sub_k
        else subRegion in
      let tBuv := T_atRegionBoundary p ("3uv"%string) in
      let tBwx := T_atRegionBoundary p ("3wx"%string) in
      let tBef := T_atRegionBoundary p ("3ef"%string) in
      if p >? #22.11 then
        if T <=? tBuv then
          sub_u
        else if T <? tBef then
          sub_v
        else if T <? tBwx then
          sub_w
        else sub_x
      else if p >? #22.064 then
        let tBwx := T_atRegionBoundary p ("3wx"%string) in
        let tBuv := T_atRegionBoundary p ("3uv"%string) in
        if T <=? tBuv then
          sub_u
        else if T <=? tBef then
          sub_y
        else if T <=? tBwx then
          sub_z
        else sub_x
      else let T_sat := T_saturation p in
        if T <=? T_sat then
          if p >? #21.93161551 then
            if T <? tBuv then
              sub_u
            else sub_y
          else sub_u
        else if p >? #21.90096265 then
          if T <? tBwx then
            sub_z
          else sub_x
        else sub_x in
    if T <=? tBcd then
      let subRegion := sub_c in
      k1 subRegion
    else 
    if T <=? tBqu then
      sub_q
    else 
    k1 subRegion
  else 
  if p >? #20.5 then
    let tBcd := T_atRegionBoundary p ("3cd"%string) in
    let tBjk := T_atRegionBoundary p ("3jk"%string) in
    let T_sat := T_saturation p in
    if T <=? tBcd then
      sub_c
    else if T <=? T_sat then
      sub_s
    else if T <=? tBjk then
      sub_r
    else sub_k
  else if p >? #19.00881189173929 then
    let tBcd := T_atRegionBoundary p ("3cd"%string) in
    let T_sat := T_saturation p in
    if T <=? tBcd then
      sub_c
    else if T <=? T_sat then
      sub_s
    else sub_t
  else let T_sat := T_saturation p in
    if T <=? T_sat then
      sub_c
    else sub_t.

(* src/r3/region3_v_pT.rs:394-397 *)
Definition pT2v_reg3 (p : num) (T : num) : num :=
  let sub_region := sub_region3_pT p T in
  pT2v_3subreg p T sub_region.

End Model.

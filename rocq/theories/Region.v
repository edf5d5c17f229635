(* Generated by tools/rs2v.py from src/common/region.rs, src/common/propertry_pairs.rs.
   Every definition cites the source lines it models; see tools/rs2v.py for the
   translation rules (mutable variables become let-rebinding, match on constants
   becomes an if-chain in source order, for loops over ranges become fold_left). *)
From Coq Require Import ZArith List Bool String.
From Verif Require Import Num Constant R4Sat Reg1 Reg2 Reg5 Reg3Td Boundaries Reg1Back Reg2Back Reg5Back Reg3V Reg3 Reg4.
Import ListNotations.
Open Scope num_scope.

Section Model.
Context {N : Arith}.

(* src/common/region.rs:28-28  REGION_NONE *)
Definition REGION_NONE : Z :=
  10%Z.

(* src/common/region.rs:47-47  psatTol *)
Definition pT_sub_region_psatTol : num :=
  #1.0e-6.

(* src/common/region.rs:32-86 *)
Definition pT_sub_region (p : num) (T : num) : Z :=
  if (p <? P_MIN) || (p >? #100.0) then
    INVALID_P
  else 
  if (T <? #273.15) || (T >? #2273.15) then
    INVALID_T
  else 
  if ((T >? #1073.15) && (T <=? #2273.15)) && (p >? #50.0) then
    INVALID_P
  else 
  let k1 := fun (_ : unit) =>
    if (T =? TC_WATER) && (p =? PC_WATER) then
      3%Z
    else 
    let k2 := fun (_ : unit) =>
      let k3 := fun (_ : unit) =>
        if (((T >? #863.15) && (T <=? #1073.15)) && (p >=? P_MIN)) && (p <=? #100.0) then
          2%Z
        else 
        if (((#1073.15 <? T) && (T <=? #2273.15)) && (P_MIN <=? p)) && (p <=? #50.0) then
          5%Z
        else 
        INVALID_VALUE in
      if (T >? #623.15) && (T <=? #863.15) then
        if (p >=? P_MIN) && (p <=? (B23_T2p T)) then
          2%Z
        else 
        if (p >? (B23_T2p T)) && (p <=? #100.0) then
          3%Z
        else 
        k3 tt
      else 
      k3 tt in
    if (T >=? #273.15) && (T <=? #623.15) then
      if (p >=? (p_saturation T)) && (p <=? #100.0) then
        1%Z
      else 
      if (p <? (p_saturation T)) && (p >? P_MIN) then
        2%Z
      else 
      k2 tt
    else 
    k2 tt in
  if (T >=? #273.15) && (T <? TC_WATER) then
    let ps := p_saturation T in
    if ((nabs (p - ps)) / ps) <? pT_sub_region_psatTol then
      4%Z
    else 
    k1 tt
  else 
  k1 tt.

(* src/common/region.rs:90-158 *)
Definition ph_sub_region (p : num) (h : num) : Z :=
  let hmin := pT2h_reg1 p (#273.15) in
  let hmax := pT2h_reg5 p (#2273.15) in
  let k1 := fun (_ : unit) =>
    let k2 := fun (_ : unit) =>
      if (PC_WATER <=? p) && (p <=? #100.0) then
        let h13 := pT2h_reg1 p (#623.15) in
        let h32 := pT2h_reg2 p (B23_p2T p) in
        let h25 := pT2h_reg2 p (#1073.15) in
        if (hmin <=? h) && (h <=? h13) then
          1%Z
        else 
        if (h13 <? h) && (h <? h32) then
          3%Z
        else 
        if (h32 <=? h) && (h <=? h25) then
          2%Z
        else 
        if (p <=? #50.0) && ((h25 <=? h) && (h <=? hmax)) then
          5%Z
        else 
        INVALID_VALUE
      else 
      INVALID_VALUE in
    if (Ps_623 <? p) && (p <? PC_WATER) then
      let h13 := pT2h_reg1 p (#623.15) in
      let h32 := pT2h_reg2 p (B23_p2T p) in
      let h25 := pT2h_reg2 p (#1073.15) in
      if (hmin <=? h) && (h <=? h13) then
        1%Z
      else 
      if (h13 <? h) && (h <? h32) then
        let p34 := h2p_sat_reg3 h in
        if p <? p34 then
          4%Z
        else 
        3%Z
      else 
      if (h32 <=? h) && (h <=? h25) then
        2%Z
      else 
      if (h25 <? h) && (h <=? hmax) then
        5%Z
      else 
      k2 tt
    else 
    k2 tt in
  if (P_MIN <=? p) && (p <=? Ps_623) then
    let T_sat := T_saturation p in
    let h14 := pT2h_reg1 p T_sat in
    let h24 := pT2h_reg2 p T_sat in
    let h25 := pT2h_reg2 p (#1073.15) in
    if (hmin <=? h) && (h <=? h14) then
      1%Z
    else 
    if (h14 <? h) && (h <? h24) then
      4%Z
    else 
    if (h24 <=? h) && (h <=? h25) then
      2%Z
    else 
    if (h25 <? h) && (h <=? hmax) then
      5%Z
    else 
    k1 tt
  else 
  k1 tt.

(* src/common/region.rs:162-231 *)
Definition ps_sub_region (p : num) (s : num) : Z :=
  let smin := pT2s_reg1 p (#273.15) in
  let smax := pT2s_reg5 p (#2273.15) in
  let k1 := fun (_ : unit) =>
    let k2 := fun (_ : unit) =>
      if (PC_WATER <=? p) && (p <=? #100.0) then
        let s13 := pT2s_reg1 p (#623.15) in
        let s32 := pT2s_reg2 p (B23_p2T p) in
        let s25 := pT2s_reg2 p (#1073.15) in
        if (smin <=? s) && (s <=? s13) then
          1%Z
        else 
        if (s13 <? s) && (s <? s32) then
          3%Z
        else 
        if (s32 <=? s) && (s <=? s25) then
          2%Z
        else 
        if ((p <=? #50.0) && (s25 <=? s)) && (s <=? smax) then
          5%Z
        else 
        INVALID_VALUE
      else 
      INVALID_VALUE in
    if (Ps_623 <? p) && (p <? PC_WATER) then
      let s13 := pT2s_reg1 p (#623.15) in
      let s32 := pT2s_reg2 p (B23_p2T p) in
      let s25 := pT2s_reg2 p (#1073.15) in
      if (smin <=? s) && (s <=? s13) then
        1%Z
      else 
      if (s13 <? s) && (s <? s32) then
        let p34 := s2p_sat_reg3 s in
        if p <? p34 then
          4%Z
        else 
        3%Z
      else 
      if (s32 <=? s) && (s <=? s25) then
        2%Z
      else 
      if (s25 <? s) && (s <=? smax) then
        5%Z
      else 
      k2 tt
    else 
    k2 tt in
  if (P_MIN <=? p) && (p <=? Ps_623) then
    let Tsat := T_saturation p in
    let s14 := pT2s_reg1 p Tsat in
    let s24 := pT2s_reg2 p Tsat in
    let s25 := pT2s_reg2 p (#1073.15) in
    if (smin <=? s) && (s <=? s14) then
      1%Z
    else 
    if (s14 <? s) && (s <? s24) then
      4%Z
    else 
    if (s24 <=? s) && (s <=? s25) then
      2%Z
    else 
    if (s25 <? s) && (s <=? smax) then
      5%Z
    else 
    k1 tt
  else 
  k1 tt.

(* src/common/region.rs:234-423 *)
Definition hs_sub_region (h : num) (s : num) : Z :=
  let T := #0.0 in
  let p := #0.0 in
  let v := #0.0 in
  let hs := #0.0 in
  let s13 := pT2s_reg1 (#100.0) (#623.15) in
  let s13s := pT2s_reg1 Ps_623 (#623.15) in
  let sTPmax := pT2s_reg2 (#100.0) (#1073.15) in
  let s2ab := pT2s_reg2 (#4.0) (#1073.15) in
  let smin := pT2s_reg1 (#100.0) (#273.15) in
  let hmin := pT2h_reg1 P_MIN (#273.15) in
  let hmax := pT2h_reg2 P_MIN (#1073.15) in
  let smax := pT2s_reg2 P_MIN (#1073.15) in
  let h4l := pT2h_reg1 P_MIN (#273.15) in
  let s4l := pT2s_reg1 P_MIN (#273.15) in
  let h4v := pT2h_reg2 P_MIN (#273.15) in
  let s4v := pT2s_reg2 P_MIN (#273.15) in
  let k1 := fun (p : num) (T : num) =>
    let k2 := fun (hmin : num) (hs : num) (T : num) (hmax : num) =>
      let k3 := fun (hmin : num) (hs : num) (v : num) (T : num) (hmax : num) =>
        let k4 := fun (hmin : num) (hs : num) (v : num) (T : num) (hmax : num) =>
          let k5 := fun (hmin : num) (hs : num) (v : num) (T : num) (hmax : num) =>
            let k6 := fun (hmin : num) (hs : num) (T : num) (hmax : num) =>
              let k7 := fun (hmin : num) (hs : num) (T : num) (hmax : num) =>
                let k8 := fun (hmin : num) (hs : num) (T : num) (hmax : num) =>
                  let k9 := fun (hmin : num) (hs : num) (p : num) (hmax : num) =>
                    let k10 := fun (hmin : num) (hs : num) (p : num) (hmax : num) =>
                      if (s4v <=? s) && (s <=? smax) then
                        let hmin := pT2h_reg2 P_MIN (#273.15) in
                        let p := hs2p_reg2a h s in
                        let hmax := pT2h_reg2 p (#1073.15) in
                        if (((P_MIN <=? p) && (p <=? #100.0)) && (hmin <=? h)) && (h <=? hmax) then
                          2%Z
                        else 
                        INVALID_VALUE
                      else 
                      INVALID_VALUE in
                    if (s2ab <=? s) && (s <? s4v) then
                      let hmin := h4l + (((s - s4l) / (s4v - s4l)) * (h4v - h4l)) in
                      let hs := hs_region_h2ab_s s in
                      let p := hs2p_reg2 h s in
                      let hmax := pT2h_reg2 p (#1073.15) in
                      if (hmin <=? h) && (h <? hs) then
                        4%Z
                      else 
                      if (hs <=? h) && (h <=? hmax) then
                        2%Z
                      else 
                      k10 hmin hs p hmax
                    else 
                    k10 hmin hs p hmax in
                  if (sTPmax <=? s) && (s <? s2ab) then
                    let hmin := h4l + (((s - s4l) / (s4v - s4l)) * (h4v - h4l)) in
                    let hs := hs_region_h2ab_s s in
                    let p := hs2p_reg2 h s in
                    let hmax := pT2h_reg2 p (#1073.15) in
                    if (hmin <=? h) && (h <? hs) then
                      4%Z
                    else 
                    if (hs <=? h) && (h <=? hmax) then
                      2%Z
                    else 
                    k9 hmin hs p hmax
                  else 
                  k9 hmin hs p hmax in
                if (#5.85 <=? s) && (s <? sTPmax) then
                  let hmin := h4l + (((s - s4l) / (s4v - s4l)) * (h4v - h4l)) in
                  let hs := hs_region_h2ab_s s in
                  let T := (ps2T_reg2 (#100.0) s) - #0.019 in
                  let hmax := pT2h_reg2 (#100.0) T in
                  if (hmin <=? h) && (h <? hs) then
                    4%Z
                  else 
                  if (hs <=? h) && (h <=? hmax) then
                    2%Z
                  else 
                  k8 hmin hs T hmax
                else 
                k8 hmin hs T hmax in
              if (#5.260578707 <=? s) && (s <? #5.85) then
                let hmin := h4l + (((s - s4l) / (s4v - s4l)) * (h4v - h4l)) in
                let hs := hs_region_h2c3b_s s in
                let T := (ps2T_reg2 (#100.0) s) - #0.019 in
                let hmax := pT2h_reg2 (#100.0) T in
                if (hmin <=? h) && (h <? hs) then
                  4%Z
                else 
                if (hs <=? h) && (h <=? hmax) then
                  2%Z
                else 
                k7 hmin hs T hmax
              else 
              k7 hmin hs T hmax in
            if (#5.049096828 <=? s) && (s <? #5.260578707) then
              let hmin := h4l + (((s - s4l) / (s4v - s4l)) * (h4v - h4l)) in
              let hs := hs_region_h2c3b_s s in
              let h23max := pT2h_reg2 (#100.0) (#863.15) in
              let h23min := pT2h_reg2 Ps_623 (#623.15) in
              let T := (ps2T_reg2 (#100.0) s) - #0.019 in
              let hmax := pT2h_reg2 (#100.0) T in
              if (hmin <=? h) && (h <? hs) then
                4%Z
              else 
              if (hs <=? h) && (h <? h23min) then
                3%Z
              else 
              if (h23min <=? h) && (h <? h23max) then
                if (hs2p_reg2c h s) <=? (B23_T2p (hs_region_t_hs h s)) then
                  2%Z
                else 
                3%Z
              else 
              if (h23max <=? h) && (h <=? hmax) then
                2%Z
              else 
              k6 hmin hs T hmax
            else 
            k6 hmin hs T hmax in
          if (SC_WATER <? s) && (s <? #5.049096828) then
            let hmin := h4l + (((s - s4l) / (s4v - s4l)) * (h4v - h4l)) in
            let hs := hs_region_h2c3b_s s in
            let v := (ps2v_reg3 (#100.0) s) * (#1.0 + #9.6e-5) in
            let T := (ps2T_reg3 (#100.0) s) - #0.0248 in
            let hmax := Td2h_reg3 T (#1.0 / v) in
            if (hmin <=? h) && (h <? hs) then
              4%Z
            else 
            if (hs <=? h) && (h <=? hmax) then
              3%Z
            else 
            k5 hmin hs v T hmax
          else 
          k5 hmin hs v T hmax in
        if (s13s <? s) && (s <=? SC_WATER) then
          let hmin := h4l + (((s - s4l) / (s4v - s4l)) * (h4v - h4l)) in
          let hs := hs_region_h3a_s s in
          let v := (ps2v_reg3 (#100.0) s) * (#1.0 + #9.6e-5) in
          let T := (ps2T_reg3 (#100.0) s) - #0.0248 in
          let hmax := Td2h_reg3 T (#1.0 / v) in
          if (hmin <=? h) && (h <? hs) then
            4%Z
          else 
          if (hs <=? h) && (h <=? hmax) then
            3%Z
          else 
          k4 hmin hs v T hmax
        else 
        k4 hmin hs v T hmax in
      if (s13 <? s) && (s <=? s13s) then
        let hmin := h4l + (((s - s4l) / (s4v - s4l)) * (h4v - h4l)) in
        let hs := hs_region_h1_s s in
        let h13 := hs_region_h13_s s in
        let v := (ps2v_reg3 (#100.0) s) * (#1.0 + #9.6e-5) in
        let T := (ps2T_reg3 (#100.0) s) - #0.0248 in
        let hmax := Td2h_reg3 T (#1.0 / v) in
        if (hmin <=? h) && (h <? hs) then
          4%Z
        else 
        if (hs <=? h) && (h <? h13) then
          1%Z
        else 
        if (h13 <=? h) && (h <=? hmax) then
          3%Z
        else 
        k3 hmin hs v T hmax
      else 
      k3 hmin hs v T hmax in
    if (smin <=? s) && (s <=? s13) then
      let hmin := h4l + (((s - s4l) / (s4v - s4l)) * (h4v - h4l)) in
      let hs := hs_region_h1_s s in
      let T := (ps2T_reg1 (#100.0) s) - #0.0218 in
      let hmax := pT2h_reg1 (#100.0) T in
      if (hmin <=? h) && (h <? hs) then
        4%Z
      else 
      if (hs <=? h) && (h <=? hmax) then
        1%Z
      else 
      k2 hmin hs T hmax
    else 
    k2 hmin hs T hmax in
  if ((((pT2s_reg5 (#50.0) (#1073.15)) <? s) && (s <=? (pT2s_reg5 P_MIN (#2273.15)))) && ((pT2h_reg5 (#50.0) (#1073.15)) <? h)) && (h <=? (pT2h_reg5 P_MIN (#2273.15))) then
    let p := hs2p_reg5 h s in
    let T := ph2T_reg5 p h in
    if (((#1073.15 <? T) && (T <=? #2273.15)) && (P_MIN <=? p)) && (p <=? #50.0) then
      5%Z
    else 
    k1 p T
  else 
  k1 p T.

(* src/common/region.rs:427-481 *)
Definition pv_sub_region (p : num) (v : num) : Z :=
  if (p <? P_MIN2) || (p >? P_MAX2) then
    INVALID_VALUE
  else 
  let vt273 := pT2v_reg1 p (#273.15) in
  let vt1073 := pT2v_reg2 p (#1073.15) in
  let vt2273 := #0.0 in
  let vt2273 :=
    if (p >=? P_MIN5) && (p <=? P_MAX5) then
      pT2v_reg5 p (#2273.15)
    else vt2273 in
  let T1 := #0.0 in
  let vsw := #0.0 in
  let vss := #0.0 in
  let vt623 := #0.0 in
  let vB23 := #0.0 in
  let '(T1, vsw, vss, vt623, vB23) :=
    if (p >? #0.000611213) && (p <=? P_MIN3) then
      let T1 := T_saturation p in
      let vsw := pT2v_reg1 p T1 in
      let vss := pT2v_reg2 p T1 in
      (T1, vsw, vss, vt623, vB23)
    else let '(vt623, T1, vB23, vsw, vss) :=
      if (p >? P_MIN3) && (p <=? P_MAX3) then
        let vt623 := pT2v_reg1 p (#623.15) in
        let T1 := B23_p2T p in
        let vB23 := pT2v_reg2 p T1 in
        let '(T1, vsw, vss) :=
          if p <=? PC_WATER then
            let T1 := T_saturation p in
            let vsw := pT2v_sat_reg3 p T1 (#0.0) in
            let vss := pT2v_sat_reg3 p T1 (#1.0) in
            (T1, vsw, vss)
          else (T1, vsw, vss) in
        (vt623, T1, vB23, vsw, vss)
      else (vt623, T1, vB23, vsw, vss) in
    (T1, vsw, vss, vt623, vB23) in
  if (((p >=? P_MIN1) && (p <=? P_MIN3)) && ((v >=? vt273) && (v <=? vsw))) || (((p >? P_MIN3) && (p <=? P_MAX1)) && ((v >=? vt273) && (v <=? vt623))) then
    1%Z
  else 
  if ((((p >=? P_MIN2) && (p <=? P_MIN3)) && (v >? vss)) && (v <=? vt1073)) || ((((p >? P_MIN3) && (p <=? P_MAX2)) && (v >=? vB23)) && (v <=? vt1073)) then
    2%Z
  else 
  if (((p >? P_MIN3) && (p <=? PC_WATER)) && (((v >? vt623) && (v <? vsw)) || ((v >? vss) && (v <? vB23)))) || ((((p >? PC_WATER) && (p <=? P_MAX3)) && (v >? vt623)) && (v <? vB23)) then
    3%Z
  else 
  if (((p >? P_MIN) && (p <=? PC_WATER)) && (v >=? vsw)) && (v <=? vss) then
    4%Z
  else 
  if (((p >? P_MIN5) && (p <=? P_MAX5)) && (v >? vt1073)) && (v <=? vt2273) then
    5%Z
  else 
  INVALID_VALUE.

(* src/common/region.rs:484-556 *)
Definition tv_sub_region (t : num) (v : num) : Z :=
  let T := t + #273.15 in
  if (T <? #273.15) || (T >? #2273.15) then
    INVALID_VALUE
  else 
  let vpmax2 := #0.0 in
  let vpmax2 :=
    if (T >=? T_MIN2) && (T <=? T_MAX2) then
      pT2v_reg2 P_MIN2 T
    else vpmax2 in
  let vpmax5 := #0.0 in
  let vp50 := #0.0 in
  let '(vpmax5, vp50) :=
    if (T >=? T_MIN5) && (T <=? T_MAX5) then
      let vpmax5 := pT2v_reg5 P_MIN5 T in
      let vp50 := pT2v_reg5 (#50.0) T in
      (vpmax5, vp50)
    else (vpmax5, vp50) in
  let vp100 := #0.0 in
  let vp100 :=
    if (T >=? T_MIN1) && (T <=? T_MAX1) then
      pT2v_reg1 (#100.0) T
    else vp100 in
  let vp100 :=
    if (T >? T_MIN3) && (T <=? T_MAX3) then
      pT2v_reg3 (#100.0) T
    else vp100 in
  let vp100 :=
    if (T >? T_MAX3) && (T <=? T_MAX2) then
      pT2v_reg2 (#100.0) T
    else vp100 in
  let vsw := #0.0 in
  let vss := #0.0 in
  let vB23 := #0.0 in
  let p1 := #0.0 in
  let '(vsw, vss, p1, vB23) :=
    if (T >=? T_MIN1) && (T <=? T_MAX1) then
      let vsw := T2sat_water T OV in
      let vss := T2sat_steam T OV in
      (vsw, vss, p1, vB23)
    else let '(p1, vB23, vsw, vss) :=
      if (T >? T_MIN3) && (T <=? T_MAX3) then
        let p1 := B23_T2p T in
        let vB23 := pT2v_reg2 p1 T in
        let '(p1, vsw, vss) :=
          if T <=? TC_WATER then
            let p1 := p_saturation T in
            let vsw := pT2v_sat_reg3 p1 T (#0.0) in
            let vss := pT2v_sat_reg3 p1 T (#1.0) in
            (p1, vsw, vss)
          else (p1, vsw, vss) in
        (p1, vB23, vsw, vss)
      else (p1, vB23, vsw, vss) in
    (vsw, vss, p1, vB23) in
  if (((T >=? T_MIN1) && (T <=? T_MAX1)) && (v <? vsw)) && (v >? vp100) then
    1%Z
  else 
  if ((((T >=? T_MIN2) && (T <=? T_MAX1)) && (v >? vss)) && (v <? vpmax2)) || ((((T >? T_MAX1) && (T <=? T_MAX3)) && (v >=? vB23)) && (v <? vpmax2)) then
    2%Z
  else 
  if (((T >? T_MIN3) && (T <=? TC_WATER)) && (((v >? vss) && (v <? vB23)) || ((v >=? vp100) && (v <? vsw)))) || ((((T >? TC_WATER) && (T <=? T_MAX3)) && (v >=? vp100)) && (v <? vB23)) then
    3%Z
  else 
  if (((T >=? T_MIN1) && (T <=? TC_WATER)) && (v >=? vsw)) && (v <=? vss) then
    4%Z
  else 
  if (((T >? T_MIN5) && (T <=? T_MAX5)) && (v >=? vp50)) && (v <=? vpmax5) then
    5%Z
  else 
  INVALID_VALUE.

(* src/common/region.rs:658-733 *)
Definition ts_sub_region (t : num) (s : num) : Z :=
  let T := t + #273.15 in
  if (T <? #273.15) || (T >? #2273.15) then
    INVALID_T
  else 
  if (s >? S_MAX) || (s <? S_MIN) then
    INVALID_S
  else 
  let spmax2 := #0.0 in
  let spmax2 :=
    if (T >=? T_MIN2) && (T <=? T_MAX2) then
      pT2s_reg2 P_MIN2 T
    else spmax2 in
  let spmax5 := #0.0 in
  let sp50 := #0.0 in
  let '(spmax5, sp50) :=
    if (T >=? T_MIN5) && (T <=? T_MAX5) then
      let spmax5 := pT2s_reg5 P_MIN5 T in
      let sp50 := pT2s_reg5 (#50.0) T in
      (spmax5, sp50)
    else (spmax5, sp50) in
  let sp100 := #0.0 in
  let sp100 :=
    if (T >=? T_MIN1) && (T <=? T_MAX1) then
      pT2s_reg1 (#100.0) T
    else sp100 in
  let sp100 :=
    if (T >? T_MIN3) && (T <=? T_MAX3) then
      pT_reg3 (#100.0) T OS
    else sp100 in
  let sp100 :=
    if (T >? T_MAX3) && (T <=? T_MAX2) then
      pT2s_reg2 (#100.0) T
    else sp100 in
  let p1 := #0.0 in
  let ssw := #0.0 in
  let sss := #0.0 in
  let sB23 := #0.0 in
  let '(p1, ssw, sss, sB23) :=
    if (T >=? T_MIN1) && (T <=? T_MAX1) then
      let p1 := p_saturation T in
      let ssw := pT2s_reg1 p1 T in
      let sss := pT2s_reg2 p1 T in
      (p1, ssw, sss, sB23)
    else let '(p1, sB23, ssw, sss) :=
      if (T >? T_MIN3) && (T <=? T_MAX3) then
        let p1 := B23_T2p T in
        let sB23 := pT2s_reg2 p1 T in
        let '(p1, ssw, sss) :=
          if T <=? TC_WATER then
            let p1 := p_saturation T in
            let v := pT2v_sat_reg3 p1 T (#0.0) in
            let ssw := Td2s_reg3 T (#1.0 / v) in
            let v := pT2v_sat_reg3 p1 T (#1.0) in
            let sss := Td2s_reg3 T (#1.0 / v) in
            (p1, ssw, sss)
          else (p1, ssw, sss) in
        (p1, sB23, ssw, sss)
      else (p1, sB23, ssw, sss) in
    (p1, ssw, sss, sB23) in
  if (((T >=? T_MIN1) && (T <=? T_MAX1)) && (s <? ssw)) && (s >? sp100) then
    1%Z
  else 
  if ((((T >=? T_MIN2) && (T <=? T_MAX1)) && (s >? sss)) && (s <? spmax2)) || ((((T >? T_MAX1) && (T <=? T_MAX3)) && (s >=? sB23)) && (s <? spmax2)) then
    2%Z
  else 
  if (((T >? T_MIN3) && (T <=? TC_WATER)) && (((s >? sss) && (s <? sB23)) || ((s >=? sp100) && (s <? ssw)))) || ((((T >? TC_WATER) && (T <=? T_MAX3)) && (s >=? sp100)) && (s <? sB23)) then
    3%Z
  else 
  if (((T >=? T_MIN1) && (T <=? TC_WATER)) && (s >=? ssw)) && (s <=? sss) then
    4%Z
  else 
  if (((T >? T_MIN5) && (T <=? T_MAX5)) && (s >=? sp50)) && (s <=? spmax5) then
    5%Z
  else 
  INVALID_VALUE.

(* src/common/region.rs:606-619, the search for the smallest enthalpy on the
   isotherm; [None]: still running after [fuel] rounds *)
Definition th_Hmin (fuel : positive) (T Hmin p11 : num) : option num :=
  match loop_pos fuel
    (fun '(p11, Hmin, HminFounded) =>
       if negb HminFounded then
         let p11 := p11 + #0.1 in
         let Hmid := pT2h_reg1 p11 T in
         if Hmid <? Hmin then inl (p11, Hmid, HminFounded)
         else inl (p11, Hmin, true)
       else inr Hmin) (p11, Hmin, false) with
  | inr r => Some r
  | inl _ => None
  end.

(* src/common/region.rs:559-655 *)
Definition th_sub_region (fuel : positive) (t h : num) : option Z :=
  let T := t + #273.15 in
  if (T <? #273.15) || (T >? #2273.15) then Some INVALID_VALUE
  else
  let hpmax2 := if (T >=? T_MIN2) && (T <=? T_MAX2) then pT2h_reg2 P_MIN2 T else #0.0 in
  let '(hpm50, hpmax5) :=
    if (T >? T_MIN5) && (T <=? T_MAX5) then (pT2h_reg5 P_MAX5 T, pT2h_reg5 P_MIN5 T)
    else (#0.0, #0.0) in
  let hp100 :=
    if (T >=? T_MIN1) && (T <=? T_MAX1) then pT2h_reg1 (#100.0) T
    else if (T >? T_MIN3) && (T <=? T_MAX3) then pt_reg3 (#100.0) (T - #273.15) OH
    else #0.0 in
  let '(hsw, hss, p1, hB23) :=
    if (T >=? T_MIN1) && (T <=? T_MAX1) then
      (T2sat_water T OH, T2sat_steam T OH, #0.0, #0.0)
    else if (T >? T_MIN3) && (T <=? T_MAX3) then
      let p1 := B23_T2p T in
      let hB23 := pT2h_reg2 p1 T in
      if T <=? TC_WATER then
        let p1 := p_saturation T in
        let v := pT2v_sat_reg3 p1 T (#0.0) in
        let hsw := Td2h_reg3 T (#1.0 / v) in
        let v := pT2v_sat_reg3 p1 T (#1.0) in
        let hss := Td2h_reg3 T (#1.0 / v) in
        (hsw, hss, p1, hB23)
      else (#0.0, #0.0, p1, hB23)
    else (#0.0, #0.0, #0.0, #0.0) in
  if (T >=? T_MIN1) && (T <? (#250.0 + T_MIN1)) && (h >? hsw) && (h <=? hp100) then Some 1%Z
  else
  if (T >=? (#250.0 + #273.15)) && (T <=? T_MAX1) && (h <? hsw) && (h <=? hp100) then
    let Hmin := hsw in
    let p11 := p1 + #0.1 in
    let Hmid := pT2h_reg1 p11 T in
    if Hmid <? Hmin then
      match th_Hmin fuel T Hmin p11 with
      | None => None
      | Some Hmin => if h >=? Hmin then Some 1%Z else Some INVALID_VALUE
      end
    else Some INVALID_VALUE
  else
  if (T >=? T_MIN2) && (T <=? T_MAX1) && (h >? hss) && (h <? hpmax2) then Some 2%Z
  else
  if (T >? T_MAX1) && (T <=? T_MAX3) && (h >=? hB23) && (h <? hpmax2) then Some 2%Z
  else
  if ((T >? T_MIN3) && (T <=? TC_WATER) &&
        (((h >? hss) && (h <? hB23)) || ((h >=? hp100) && (h <? hsw))))
     || ((T >? TC_WATER) && (T <=? T_MAX3) && (h >=? hp100) && (h <? hB23)) then Some 3%Z
  else
  if (T >=? T_MIN1) && (T <=? TC_WATER) && (h >=? hsw) && (h <=? hss) then Some 4%Z
  else
  if (T >? T_MIN5) && (T <=? T_MAX5) && (h >=? hpm50) && (h <=? hpmax5) then Some 5%Z
  else Some INVALID_VALUE.

(* src/common/propertry_pairs.rs:110-137 *)
Definition pair_properties (v1 : num) (v2 : num) (o_id : Z) (fr : (num -> num -> Z)) (f1 : (num -> num -> Z -> num)) (f2 : (num -> num -> Z -> num)) (f3 : (num -> num -> Z -> num)) (f4 : (num -> num -> Z -> num)) (f5 : (num -> num -> Z -> num)) (reg : Z) : num :=
  let sub_region := reg in
  let sub_region :=
    if Z.eqb reg REGION_NONE then
      fr v1 v2
    else sub_region in
  if Z.eqb o_id OR then
    ofZ sub_region
  else 
  if Z.eqb o_id OX then
    if Z.eqb sub_region 1%Z then
      #0.0
    else if ((Z.eqb sub_region 2%Z) || (Z.eqb sub_region 3%Z)) || (Z.eqb sub_region 5%Z) then
      #1.0
    else if Z.eqb sub_region 4%Z then
      f4 v1 v2 OX
    else 
    ofZ INVALID_VALUE
  else 
  if Z.eqb sub_region 1%Z then
    f1 v1 v2 o_id
  else if Z.eqb sub_region 2%Z then
    f2 v1 v2 o_id
  else if Z.eqb sub_region 3%Z then
    f3 v1 v2 o_id
  else if Z.eqb sub_region 4%Z then
    f4 v1 v2 o_id
  else if Z.eqb sub_region 5%Z then
    f5 v1 v2 o_id
  else 
    ofZ sub_region.

End Model.

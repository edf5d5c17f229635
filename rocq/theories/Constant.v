(* Generated by tools/rs2v.py from src/common/constant.rs, src/common/propertry_id.rs.
   Every definition cites the source lines it models; see tools/rs2v.py for the
   translation rules (mutable variables become let-rebinding, match on constants
   becomes an if-chain in source order, for loops over ranges become fold_left). *)
From Coq Require Import ZArith List Bool String.
From Verif Require Import Num .
Import ListNotations.
Open Scope num_scope.

Section Model.
Context {N : Arith}.

(* src/common/constant.rs:4-4  INVALID_VALUE *)
Definition INVALID_VALUE : Z :=
  (-9999)%Z.

(* src/common/constant.rs:5-5  INVALID_OUTID *)
Definition INVALID_OUTID : Z :=
  (-1000)%Z.

(* src/common/constant.rs:6-6  INVALID_P *)
Definition INVALID_P : Z :=
  (-2100)%Z.

(* src/common/constant.rs:7-7  INVALID_T *)
Definition INVALID_T : Z :=
  (-2101)%Z.

(* src/common/constant.rs:8-8  INVALID_S *)
Definition INVALID_S : Z :=
  (-2102)%Z.

(* src/common/constant.rs:9-9  INVALID_H *)
Definition INVALID_H : Z :=
  (-2103)%Z.

(* src/common/constant.rs:10-10  INVALID_PT *)
Definition INVALID_PT : Z :=
  (-2201)%Z.

(* src/common/constant.rs:11-11  INVALID_HS *)
Definition INVALID_HS : Z :=
  (-2202)%Z.

(* src/common/constant.rs:14-14  FLOAT_ERROR *)
Definition FLOAT_ERROR : num :=
  #1.0e-6.

(* src/common/constant.rs:17-17  K *)
Definition K : num :=
  #273.15.

(* src/common/constant.rs:18-18  RGAS_WATER *)
Definition RGAS_WATER : num :=
  #0.461526.

(* src/common/constant.rs:21-21  TC_WATER *)
Definition TC_WATER : num :=
  #647.096.

(* src/common/constant.rs:22-22  PC_WATER *)
Definition PC_WATER : num :=
  #22.064.

(* src/common/constant.rs:23-23  DC_WATER *)
Definition DC_WATER : num :=
  #322.0.

(* src/common/constant.rs:24-24  SC_WATER *)
Definition SC_WATER : num :=
  #4.41202148223476.

(* src/common/constant.rs:25-25  HC_WATER *)
Definition HC_WATER : num :=
  #2.087546845e+03.

(* src/common/constant.rs:28-28  Pt *)
Definition Pt : num :=
  #611.657e-6.

(* src/common/constant.rs:29-29  Tt *)
Definition Tt : num :=
  #273.16.

(* src/common/constant.rs:30-30  st_water *)
Definition st_water : num :=
  #5.85.

(* src/common/constant.rs:31-31  ht_water *)
Definition ht_water : num :=
  #0.611783.

(* src/common/constant.rs:36-36  Ps_623 *)
Definition Ps_623 : num :=
  #16.5291642526045.

(* src/common/constant.rs:38-38  P_MIN *)
Definition P_MIN : num :=
  #0.000611212677444.

(* src/common/constant.rs:39-39  V_MAX *)
Definition V_MAX : num :=
  #1.0E+10.

(* src/common/constant.rs:40-40  V_MIN *)
Definition V_MIN : num :=
  #0.00095.

(* src/common/constant.rs:41-41  H_MAX *)
Definition H_MAX : num :=
  #7376.99.

(* src/common/constant.rs:42-42  H_MIN *)
Definition H_MIN : num :=
  #(-0.1).

(* src/common/constant.rs:43-43  S_MAX *)
Definition S_MAX : num :=
  #18.992.

(* src/common/constant.rs:44-44  S_MIN *)
Definition S_MIN : num :=
  #(-0.008583).

(* src/common/constant.rs:47-47  P01 *)
Definition P01 : num :=
  #16.53.

(* src/common/constant.rs:48-48  T01 *)
Definition T01 : num :=
  #1386.0.

(* src/common/constant.rs:49-49  T_MAX1 *)
Definition T_MAX1 : num :=
  #623.15.

(* src/common/constant.rs:50-50  T_MIN1 *)
Definition T_MIN1 : num :=
  #273.15.

(* src/common/constant.rs:51-51  P_MAX1 *)
Definition P_MAX1 : num :=
  #100.00.

(* src/common/constant.rs:52-52  P_MIN1 *)
Definition P_MIN1 : num :=
  #0.000611212677444.

(* src/common/constant.rs:55-55  T02 *)
Definition T02 : num :=
  #540.0.

(* src/common/constant.rs:56-56  P02 *)
Definition P02 : num :=
  #1.0.

(* src/common/constant.rs:57-57  T_MAX2 *)
Definition T_MAX2 : num :=
  #1073.15.

(* src/common/constant.rs:58-58  T_MIN2 *)
Definition T_MIN2 : num :=
  #273.15.

(* src/common/constant.rs:59-59  P_MAX2 *)
Definition P_MAX2 : num :=
  #100.00.

(* src/common/constant.rs:60-60  P_MIN2 *)
Definition P_MIN2 : num :=
  #1.0E-8.

(* src/common/constant.rs:63-63  D03 *)
Definition D03 : num :=
  #322.0.

(* src/common/constant.rs:64-64  T03 *)
Definition T03 : num :=
  #647.096.

(* src/common/constant.rs:65-65  T_MAX3 *)
Definition T_MAX3 : num :=
  #863.15.

(* src/common/constant.rs:66-66  T_MIN3 *)
Definition T_MIN3 : num :=
  #623.15.

(* src/common/constant.rs:67-67  P_MIN3 *)
Definition P_MIN3 : num :=
  #16.5291643.

(* src/common/constant.rs:68-68  P_MAX3 *)
Definition P_MAX3 : num :=
  #100.0.

(* src/common/constant.rs:71-71  T_MAX4 *)
Definition T_MAX4 : num :=
  #647.096.

(* src/common/constant.rs:72-72  T_MIN4 *)
Definition T_MIN4 : num :=
  #273.15.

(* src/common/constant.rs:73-73  P_MAX4 *)
Definition P_MAX4 : num :=
  #22.064.

(* src/common/constant.rs:74-74  P_MIN4 *)
Definition P_MIN4 : num :=
  #0.000611212677444.

(* src/common/constant.rs:75-75  H_MAX4 *)
Definition H_MAX4 : num :=
  #2803.2738880203456.

(* src/common/constant.rs:76-76  H_MIN4 *)
Definition H_MIN4 : num :=
  #0.38039218566765925.

(* src/common/constant.rs:77-77  S_MAX4 *)
Definition S_MAX4 : num :=
  #9.153081306725117.

(* src/common/constant.rs:78-78  S_MIN4 *)
Definition S_MIN4 : num :=
  #0.33567511183921145.

(* src/common/constant.rs:81-81  T05 *)
Definition T05 : num :=
  #1000.0.

(* src/common/constant.rs:82-82  P05 *)
Definition P05 : num :=
  #1.0.

(* src/common/constant.rs:83-83  T_MAX5 *)
Definition T_MAX5 : num :=
  #2273.15.

(* src/common/constant.rs:84-84  T_MIN5 *)
Definition T_MIN5 : num :=
  #1073.15.

(* src/common/constant.rs:85-85  P_MAX5 *)
Definition P_MAX5 : num :=
  #50.0.

(* src/common/constant.rs:86-86  P_MIN5 *)
Definition P_MIN5 : num :=
  #0.000611212677444.

(* src/common/propertry_id.rs:13-13  OP *)
Definition OP : Z :=
  0%Z.

(* src/common/propertry_id.rs:15-15  OT *)
Definition OT : Z :=
  1%Z.

(* src/common/propertry_id.rs:17-17  OD *)
Definition OD : Z :=
  2%Z.

(* src/common/propertry_id.rs:19-19  OV *)
Definition OV : Z :=
  3%Z.

(* src/common/propertry_id.rs:21-21  OH *)
Definition OH : Z :=
  4%Z.

(* src/common/propertry_id.rs:23-23  OS *)
Definition OS : Z :=
  5%Z.

(* src/common/propertry_id.rs:25-25  OE *)
Definition OE : Z :=
  6%Z.

(* src/common/propertry_id.rs:27-27  OU *)
Definition OU : Z :=
  7%Z.

(* src/common/propertry_id.rs:29-29  OCP *)
Definition OCP : Z :=
  8%Z.

(* src/common/propertry_id.rs:31-31  OCV *)
Definition OCV : Z :=
  9%Z.

(* src/common/propertry_id.rs:33-33  OW *)
Definition OW : Z :=
  10%Z.

(* src/common/propertry_id.rs:35-35  OKS *)
Definition OKS : Z :=
  11%Z.

(* src/common/propertry_id.rs:37-37  OF *)
Definition OF : Z :=
  12%Z.

(* src/common/propertry_id.rs:39-39  OG *)
Definition OG : Z :=
  13%Z.

(* src/common/propertry_id.rs:41-41  OZ *)
Definition OZ : Z :=
  14%Z.

(* src/common/propertry_id.rs:43-43  OX *)
Definition OX : Z :=
  15%Z.

(* src/common/propertry_id.rs:45-45  OR *)
Definition OR : Z :=
  16%Z.

(* src/common/propertry_id.rs:47-47  OEC *)
Definition OEC : Z :=
  17%Z.

(* src/common/propertry_id.rs:49-49  OKT *)
Definition OKT : Z :=
  18%Z.

(* src/common/propertry_id.rs:51-51  ODVDT *)
Definition ODVDT : Z :=
  19%Z.

(* src/common/propertry_id.rs:53-53  ODVDP *)
Definition ODVDP : Z :=
  20%Z.

(* src/common/propertry_id.rs:55-55  ODPDT *)
Definition ODPDT : Z :=
  21%Z.

(* src/common/propertry_id.rs:57-57  OIJTC *)
Definition OIJTC : Z :=
  22%Z.

(* src/common/propertry_id.rs:59-59  OJTC *)
Definition OJTC : Z :=
  23%Z.

(* src/common/propertry_id.rs:61-61  ODV *)
Definition ODV : Z :=
  24%Z.

(* src/common/propertry_id.rs:63-63  OKV *)
Definition OKV : Z :=
  25%Z.

(* src/common/propertry_id.rs:65-65  OTC *)
Definition OTC : Z :=
  26%Z.

(* src/common/propertry_id.rs:67-67  OTD *)
Definition OTD : Z :=
  27%Z.

(* src/common/propertry_id.rs:69-69  OPR *)
Definition OPR : Z :=
  28%Z.

(* src/common/propertry_id.rs:71-71  OST *)
Definition OST : Z :=
  29%Z.

(* src/common/propertry_id.rs:73-73  OSDC *)
Definition OSDC : Z :=
  30%Z.

(* src/common/propertry_id.rs:75-75  OPC *)
Definition OPC : Z :=
  31%Z.

(* src/common/propertry_id.rs:77-77  OBETAP *)
Definition OBETAP : Z :=
  32%Z.

(* src/common/propertry_id.rs:79-79  OFI *)
Definition OFI : Z :=
  33%Z.

(* src/common/propertry_id.rs:81-81  OFU *)
Definition OFU : Z :=
  34%Z.

(* src/common/propertry_id.rs:83-83  OALFAP *)
Definition OALFAP : Z :=
  35%Z.

End Model.

(* Small data types of the region 3 code. *)
From Verif Require Import Num.

(* The sub-region letter, a [char] in src/r3/region3_v_pT.rs (e.g. line 170);
   [sub_unset] marks the declared-but-unassigned variable (e.g. line 172), which
   Rust's definite-assignment rule never lets the code read. *)
Inductive subregion :=
| sub_unset
| sub_a | sub_b | sub_c | sub_d | sub_e | sub_f | sub_g | sub_h | sub_i | sub_j | sub_k
| sub_l | sub_m | sub_n | sub_o | sub_p | sub_q | sub_r | sub_s | sub_t | sub_u | sub_v
| sub_w | sub_x | sub_y | sub_z.

(* char equality, as used by [match] in src/r3/region3_v_pT.rs *)
Definition subregion_eqb (a b : subregion) : bool :=
  match a, b with
  | sub_unset, sub_unset
  | sub_a, sub_a | sub_b, sub_b | sub_c, sub_c | sub_d, sub_d | sub_e, sub_e | sub_f, sub_f
  | sub_g, sub_g | sub_h, sub_h | sub_i, sub_i | sub_j, sub_j | sub_k, sub_k | sub_l, sub_l
  | sub_m, sub_m | sub_n, sub_n | sub_o, sub_o | sub_p, sub_p | sub_q, sub_q | sub_r, sub_r
  | sub_s, sub_s | sub_t, sub_t | sub_u, sub_u | sub_v, sub_v | sub_w, sub_w | sub_x, sub_x
  | sub_y, sub_y | sub_z, sub_z => true
  | _, _ => false
  end.

(* src/r3/region3_v_subregion_pT.rs:14-15, struct para *)
Record para {N : Arith} := mk_para {
  para_PS : num; para_TS : num; para_VS : num;
  para_a : num; para_b : num; para_c : num; para_d : num; para_e : num }.
Arguments mk_para {N}.

(* Small facts about the two instances of the arithmetic. *)
From Coq Require Import ZArith List Bool Reals Floats Lra Lia FinFun.
From Coq Require Import String.
From Verif Require Import Num Constant FloatInst RealInst Api Bindings Spec Control Consist.
Import ListNotations.

Lemma float_codes_distinct L : @codes_distinct (FArith L).
Proof.
  intros r c Hr Hc. cbn in Hr, Hc.
  repeat (destruct Hr as [<-|Hr]; [
    repeat (destruct Hc as [<-|Hc]; [
      first [reflexivity
      | intros E; exfalso; apply (f_equal (fun x => PrimFloat.eqb x (float_of_Z 1))) in E; vm_compute in E; discriminate E
      | intros E; exfalso; apply (f_equal Prim2SF) in E; vm_compute in E; discriminate E]|]); contradiction|]).
  contradiction.
Qed.

Lemma real_codes_distinct : @codes_distinct RArith.
Proof. intros r c _ _ E. apply eq_IZR. exact E. Qed.

Lemma real_celsius : forall T : @num RArith, add (sub T (lit 273.15%dec)) (lit 273.15%dec) = T.
Proof. intros T. cbn. ring. Qed.

Lemma real_reciprocal : forall d : @num RArith, eqb d (lit 0.0%dec) = false ->
  div (lit 1.0%dec) (div (lit 1.0%dec) d) = d.
Proof.
  intros d. cbn. unfold Req_b, R_of_dec; cbn.
  destruct (Req_EM_T d (0 / 10)) as [|n]; [discriminate|]. intros _.
  field. intros ->. apply n. lra.
Qed.

Lemma state_Td_real fuel f (t y v d : R) :
  In f [TH; TS] ->
  @call RArith fuel f t y (from_pair (OV, 3%Z)) = Some v ->
  @call RArith fuel f t y (from_pair (OD, 3%Z)) = Some d -> d <> 0%R ->
  forall o, ~ is_input f o -> o <> OV ->
  @call RArith fuel f t y (from_pair (o, 3%Z)) = @call RArith fuel TV t v (from_pair (o, 3%Z)).
Proof.
  intros Hf HV HD Hd. refine (state_Td real_reciprocal fuel f t y v d Hf HV HD _).
  cbn. unfold Req_b, R_of_dec; cbn. destruct (Req_EM_T d (0 / 10)) as [E|]; [|reflexivity].
  exfalso; apply Hd; rewrite E; lra.
Qed.

Lemma density_input_volume {N : Arith} fuel (f : api2) (a b : num) (r : Z) :
  In (f, r) [(TV, 1); (TV, 3); (TV, 5); (PV, 3)]%Z ->
  call fuel f a b (from_pair (OV, r)) = Some b /\
  call fuel f a b (from_pair (OD, r)) = Some (div (lit 1.0%dec) b).
Proof.
  intros H. split; [|apply density_of_input; exact H].
  cbn in H. repeat (destruct H as [E|H]; [injection E as <- <-; reflexivity|]). contradiction.
Qed.

Lemma density_auto {N : Arith} (D : codes_distinct) fuel (f : api2) (a b v : num) (r : Z) :
  In (f, r) (list_prod [PT; PH; PS; HS] [1; 2; 3; 5]%Z ++ list_prod [TH; TS] [1; 2; 5]%Z) ->
  call fuel f a b (from_i32 OR) = Some (ofZ r) ->
  call fuel f a b (from_i32 OV) = Some v ->
  call fuel f a b (from_i32 OD) = Some (div (lit 1.0%dec) v).
Proof.
  intros Hf HR. 
  assert (Hr : In r (region_numbers ++ error_codes f)).
  { apply in_or_app; left. cbn in Hf |- *. repeat (destruct Hf as [E|Hf]; [injection E as <- <-; tauto|]). contradiction. }
  rewrite !(region_known D fuel f a b r Hr HR). apply density_volume; assumption.
Qed.

Lemma all_ids_seq : all_ids = map Z.of_nat (seq 0 36).
Proof. reflexivity. Qed.

Lemma all_ids_ok : NoDup all_ids /\ List.length all_ids = 36%nat /\ (forall k, In k all_ids <-> (0 <= k <= 35)%Z).
Proof.
  split; [|split; [reflexivity|]].
  - rewrite all_ids_seq. apply FinFun.Injective_map_NoDup; [|apply seq_NoDup].
    intros x y H; apply Nat2Z.inj; exact H.
  - intros k. rewrite all_ids_seq, in_map_iff. split.
    + intros (n & <- & H). apply in_seq in H. lia.
    + intros H. exists (Z.to_nat k). split; [lia|]. apply in_seq. lia.
Qed.

Lemma cdecl_only_pt name c : In (name, c) cdecl_exports -> name <> "pt"%string -> c = abi_C.
Proof.
  cbn. intros H Hn. destruct H as [E|H]; [injection E as <- <-; contradiction|].
  repeat (destruct H as [E|H]; [injection E as <- <-; reflexivity|]). contradiction.
Qed.
Lemma stdcall_all name c : In (name, c) stdcall_exports -> c = abi_stdcall.
Proof. cbn. intros H. repeat (destruct H as [E|H]; [injection E as <- <-; reflexivity|]). contradiction. Qed.
Lemma same_names : map fst cdecl_exports = map fst stdcall_exports /\
  (forall n, In n py_exports <-> In n (map fst cdecl_exports)).
Proof. split; [reflexivity|]. intros n; cbn; tauto. Qed.

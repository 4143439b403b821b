(** The numbers shown: their text, and where they come from. *)
From Coq Require Import Reals Lra ZifyBool ZifyNat.
From Flocq Require Import Core.Core IEEE754.BinarySingleNaN.
From Verif Require Import Base PyStr PyFloat PyDate PyRepr S_Text S_Time M_Common M_Header M_Obs2 M_Obs3 M_Rec M_Text M_Cfg M_Names M_Xyz M_Nav M_Num M_Sat M_Main M_Run S_Out S_Show P_Str P_Float P_Div P_Repr1 P_Repr2 P_Cfg P_Errors2.
Open Scope nat_scope.

(** ** characters *)
Definition num_chars : str := lit "0123456789.-+einfa".
Definition num_text (s : str) : Prop := Forall (fun c => In c num_chars) s.
Lemma digits_num s : digits s -> num_text s.
Proof.
  apply Forall_impl. intros c [H1 H2]. assert (E : exists k, (k < 10) /\ nat_of_ascii c = 48 + k) by (exists (nat_of_ascii c - 48); lia).
  destruct E as [k [Hk E]]. rewrite <- (ascii_nat_embedding c), E. do 10 (destruct k as [|k]; [cbn; tauto|]). lia.
Qed.
Lemma num_app a b : num_text a -> num_text b -> num_text (a ++ b).
Proof. intros. apply Forall_app. auto. Qed.
Lemma num_lit s : forallb (fun c => existsb (ceqb c) num_chars) s = true -> num_text s.
Proof. intros H. apply Forall_forall. intros c Hc. rewrite forallb_forall in H. specialize (H c Hc). apply existsb_exists in H. destruct H as [d [H1 H2]]. apply ceqb_eq in H2. now subst. Qed.
Lemma num_firstn k s : num_text s -> num_text (firstn k s).
Proof. intros H. rewrite <- (firstn_skipn k s) in H. now apply Forall_app in H. Qed.
Lemma num_skipn k s : num_text s -> num_text (skipn k s).
Proof. intros H. rewrite <- (firstn_skipn k s) in H. now apply Forall_app in H. Qed.
Lemma num_zeros k : num_text (repeat "0"%char k).
Proof. apply digits_num, zeros_digits. Qed.
Lemma place_num ds p : num_text ds -> num_text (place_point ds p).
Proof.
  intros H. unfold place_point. destruct (_ && _); [destruct (p <=? 0)%Z; [|destruct (_ <=? _)%Z]|].
  - apply num_app; [now apply num_lit|]. apply num_app; [apply num_zeros|exact H].
  - apply num_app; [exact H|]. apply num_app; [apply num_zeros|now apply num_lit].
  - apply num_app; [now apply num_firstn|]. apply num_app; [now apply num_lit|now apply num_skipn].
  - apply num_app; [now apply num_firstn|]. apply num_app.
    { pose proof (num_skipn 1 ds H) as Hs. destruct (skipn 1 ds); [constructor|]. apply num_app; [now apply num_lit|exact Hs]. }
    apply num_app; [destruct (_ <? _)%Z; now apply num_lit|].
    destruct (nat_str_spec (Z.abs (p - 1))) as [Hd _]; [lia|]. unfold pad_left, repeat_c. apply num_app; [apply num_zeros|now apply digits_num].
Qed.
Lemma dec_digits_num f : forall n acc, num_text acc -> num_text (dec_digits f n acc).
Proof.
  induction f as [|f IH]; intros n acc H; cbn [dec_digits]; [exact H|].
  assert (Hc : num_text [ascii_of_N (Z.to_N (48 + n mod 10))]).
  { apply digits_num. constructor; [|constructor]. pose proof (Z.mod_pos_bound n 10 ltac:(lia)) as B. unfold digit, nat_of_ascii. rewrite N_ascii_embedding by lia. lia. }
  assert (Ha : num_text (ascii_of_N (Z.to_N (48 + n mod 10)) :: acc)) by (inversion Hc; subst; constructor; assumption).
  destruct (n <? 10)%Z; [exact Ha|]. apply IH. exact Ha.
Qed.
Lemma nat_str_num n : num_text (nat_str n).
Proof. apply dec_digits_num. constructor. Qed.
Lemma repr_num x : num_text (repr_float x).
Proof.
  destruct x as [s|s| |s m e]; cbn [repr_float]; try (destruct s; now apply num_lit); [now apply num_lit|].
  destruct (ratio m e) as [n d]. destruct (fewest _ _ _ _ _ _ _) as [c sc]. apply num_app; [destruct s; now apply num_lit|].
  apply place_num. pose proof (nat_str_num c) as H. destruct (drop_zeros_spec (nat_str c)) as [z Hz]. rewrite Hz in H. now apply Forall_app in H.
Qed.
Lemma z_str_num z : num_text (z_str z).
Proof. unfold z_str. destruct (z <? 0)%Z; [|apply nat_str_num]. constructor; [cbn; tauto|apply nat_str_num]. Qed.
Lemma num_absent s c : num_text s -> existsb (ceqb c) num_chars = false -> ~ In c s.
Proof.
  intros H E Hin. unfold num_text in H. rewrite Forall_forall in H. specialize (H c Hin). rewrite <- not_true_iff_false in E. apply E.
  apply existsb_exists. exists c. split; [exact H|]. now apply ceqb_eq.
Qed.

(** ** reading back *)
Lemma number_back x : is_b64 x -> py_float (show_val (VFloat x)) = Ok x.
Proof. exact (repr_reads x). Qed.
Lemma py_int_z z : py_int (show_val (VInt z)) = Ok z.
Proof.
  cbn [show_val]. unfold py_int, z_str. destruct (Z.ltb_spec z 0).
  - destruct (nat_str_spec (- z)) as [H1 [H2 [H3 _]]]; [lia|]. generalize dependent (nat_str (- z)). intros ds H1 H2 H3. unfold py_int_opt.
    destruct (nonempty_last ds H2) as [s1 [c1 E1]].
    assert (Hc1 : is_space c1 = false). { apply digit_not_space. rewrite E1 in H1. apply digits_app in H1. destruct H1 as [_ H1]. inversion H1; assumption. }
    pose proof (strip_core [] ("-"%char :: ds) [] "-"%char ds ("-"%char :: s1) c1 ltac:(constructor) ltac:(constructor) eq_refl (f_equal (cons "-"%char) E1) eq_refl Hc1) as S.
    rewrite app_nil_r in S. cbn [app] in S. rewrite S. rewrite drop_underscores_none by (constructor; [reflexivity|now apply digits_no_underscore]).
    change (take_sign ("-"%char :: ds)) with (true, ds). cbv iota beta. destruct ds as [|d0 dr]; [congruence|]. set (ds := d0 :: dr) in *. assert (Hd := H1). apply digits_forallb in Hd.
    rewrite Hd, digits_val_dec, H3. cbn [of_option]. f_equal. lia.
  - destruct (nat_str_spec z) as [H1 [H2 [H3 _]]]; [lia|]. pose proof (py_int_digits [] (nat_str z) [] ltac:(constructor) ltac:(constructor) H1 H2) as P.
    rewrite app_nil_r in P. cbn [app] in P. rewrite P, H3. reflexivity.
Qed.
Lemma interval_back v : (match v with PFloat x => is_b64 x | PInt _ => True end) -> reads_interval (show_num v) v.
Proof. destruct v as [n|x]; cbn [reads_interval show_num]; intros H; [apply py_int_z|now apply number_back]. Qed.
Lemma py_float_blank s : py_float (" "%char :: s) = py_float s.
Proof. reflexivity. Qed.
Lemma numbers3 sep a b c : existsb (ceqb sep) num_chars = false -> num_text a -> num_text b -> num_text c -> sep <> " "%char ->
  numbers sep (a ++ [sep] ++ " "%char :: b ++ [sep] ++ " "%char :: c) = [py_float a; py_float b; py_float c].
Proof.
  intros Hs Ha Hb Hc Hn. unfold numbers. assert (Hx : forall s, num_text s -> ~ In sep (" "%char :: s)).
  { intros s H [X|X]; [now apply Hn|]. exact (num_absent s sep H Hs X). }
  cbn [app]. rewrite (split_on_app sep a) by now apply num_absent. change (" "%char :: b ++ sep :: " "%char :: c) with ((" "%char :: b) ++ sep :: " "%char :: c).
  rewrite (split_on_app sep (" "%char :: b)) by now apply Hx. rewrite split_on_absent by now apply Hx. cbn [map]. now rewrite !py_float_blank.
Qed.
Lemma three_back p : is_b64_3 p -> numbers ","%char (three p) = three_of p.
Proof.
  destruct p as [[x y] z]. intros [Hx [Hy Hz]]. unfold three, three_of. cbn [map commas].
  pose proof (numbers3 ","%char (show_val (VFloat x)) (show_val (VFloat y)) (show_val (VFloat z)) eq_refl (repr_num x) (repr_num y) (repr_num z) ltac:(discriminate)) as H.
  rewrite !number_back in H by assumption. exact H.
Qed.

(** ** arithmetic gives binary64 numbers *)
Lemma b64_B x : is_b64 x -> exists b : binary_float 53 1024, B2SF b = x.
Proof. intros H. exists (SF2B x H). apply B2SF_SF2B. Qed.
Lemma B_b64 (b : binary_float 53 1024) : is_b64 (B2SF b).
Proof. apply valid_binary_B2SF. Qed.
Lemma add_b64 x y : is_b64 x -> is_b64 y -> is_b64 (fadd x y).
Proof. intros Hx Hy. destruct (b64_B x Hx) as [a <-], (b64_B y Hy) as [b <-]. unfold fadd, fprec, femax. rewrite B2SF_Bplus. apply B_b64. Qed.
Lemma sub_b64 x y : is_b64 x -> is_b64 y -> is_b64 (fsub x y).
Proof. intros Hx Hy. destruct (b64_B x Hx) as [a <-], (b64_B y Hy) as [b <-]. unfold fsub, fprec, femax. rewrite B2SF_Bminus. apply B_b64. Qed.
Lemma mul_b64 x y : is_b64 x -> is_b64 y -> is_b64 (fmul x y).
Proof. intros Hx Hy. destruct (b64_B x Hx) as [a <-], (b64_B y Hy) as [b <-]. unfold fmul, fprec, femax. rewrite B2SF_Bmult. apply B_b64. Qed.
Lemma div_b64 x y z : is_b64 x -> is_b64 y -> fdiv x y = Ok z -> is_b64 z.
Proof.
  intros Hx Hy. unfold fdiv, fprec, femax. intros H. assert (E : z = SFdiv 53 1024 x y) by (destruct y; congruence). subst z.
  destruct (b64_B x Hx) as [a <-], (b64_B y Hy) as [b <-]. rewrite B2SF_Bdiv. apply B_b64.
Qed.
Lemma B2SF_Bsqrt x : SFsqrt 53 1024 (B2SF x) = B2SF (Bsqrt mode_NE x : binary_float 53 1024).
Proof.
  destruct x as [sx|sx| |sx mx ex Bx]; try reflexivity; try (destruct sx; reflexivity). destruct sx; [reflexivity|].
  simpl. rewrite B2SF_SF2B. set (melz := SFsqrt_core_binary _ _ _ _). case melz as [[mz ez] lz]. apply binary_round_aux_equiv.
Qed.
Lemma sqrt_b64 x z : is_b64 x -> float_sqrt x = Ok z -> is_b64 z.
Proof.
  intros Hx H. assert (E : z = SFsqrt 53 1024 x). { unfold float_sqrt, fsqrt_raw in H. destruct x as [[]|[]| |[]]; try discriminate H; injection H as <-; reflexivity. }
  subst z. destruct (b64_B x Hx) as [a <-]. rewrite B2SF_Bsqrt. apply B_b64.
Qed.
Lemma opp_b64 x : is_b64 x -> is_b64 (fneg x). Proof. destruct x; exact (fun H => H). Qed.
Lemma abs_b64 x : is_b64 x -> is_b64 (fabs x). Proof. destruct x; exact (fun H => H). Qed.
Lemma of_Z_b64 n : is_b64 (float_of_Z n). Proof. apply b64_valid. Qed.

Section Geodetic.
Variable (m : libm).
Hypothesis Hm : libm_b64 m.
Let o := Fops m.
Lemma lit_b64 a e : is_b64 (o_lit o a e). Proof. apply b64_valid. Qed.
Lemma int_b64 a : is_b64 (o_int o a). Proof. apply b64_valid. Qed.
Lemma pi_b64 : is_b64 (o_pi o). Proof. apply b64_valid. Qed.
Lemma pow_b64 x n y : is_b64 x -> o_pow o x n = Ok y -> is_b64 y.
Proof. intros Hx. cbn. unfold float_pow. destruct (_ && _); [discriminate|]. intros H. injection H as <-. now apply Hm. Qed.
Lemma sin_b64 x y : is_b64 x -> o_sin o x = Ok y -> is_b64 y.
Proof. intros Hx. cbn. unfold no_inf. destruct (is_inf x); [discriminate|]. intros H. injection H as <-. now apply Hm. Qed.
Lemma cos_b64 x y : is_b64 x -> o_cos o x = Ok y -> is_b64 y.
Proof. intros Hx. cbn. unfold no_inf. destruct (is_inf x); [discriminate|]. intros H. injection H as <-. now apply Hm. Qed.
Lemma atan2_b64 x y : is_b64 x -> is_b64 y -> is_b64 (o_atan2 o x y).
Proof. apply Hm. Qed.
Ltac b64 := repeat match goal with
  | H : is_b64 ?x |- is_b64 ?x => exact H
  | |- is_b64 (o_lit _ _ _) => apply lit_b64
  | |- is_b64 (datum_a _) => apply (lit_b64 6378137 0)
  | |- is_b64 (datum_b _) => apply (lit_b64 6356752314245 (-6))
  | |- is_b64 (o_int _ _) => apply int_b64
  | |- is_b64 (o_pi _) => apply pi_b64
  | |- is_b64 (o_add _ ?x ?y) => apply (add_b64 x y)
  | |- is_b64 (o_sub _ ?x ?y) => apply (sub_b64 x y)
  | |- is_b64 (o_mul _ ?x ?y) => apply (mul_b64 x y)
  | |- is_b64 (o_atan2 _ ?x ?y) => apply (atan2_b64 x y)
  end.
Ltac go :=
  match goal with
  | |- bind (o_pow o ?x ?n) _ = Ok _ -> _ => let y := fresh "v" in let E := fresh in destruct (o_pow o x n) as [y|] eqn:E; cbn [bind]; [apply (pow_b64 x n) in E; [|b64]|discriminate]
  | |- bind (o_sin o ?x) _ = Ok _ -> _ => let y := fresh "v" in let E := fresh in destruct (o_sin o x) as [y|] eqn:E; cbn [bind]; [apply (sin_b64 x) in E; [|b64]|discriminate]
  | |- bind (o_cos o ?x) _ = Ok _ -> _ => let y := fresh "v" in let E := fresh in destruct (o_cos o x) as [y|] eqn:E; cbn [bind]; [apply (cos_b64 x) in E; [|b64]|discriminate]
  | |- bind (o_sqrt o ?x) _ = Ok _ -> _ => let y := fresh "v" in let E := fresh in destruct (o_sqrt o x) as [y|] eqn:E; cbn [bind]; [apply (sqrt_b64 x) in E; [|b64]|discriminate]
  | |- bind (o_div o ?x ?z) _ = Ok _ -> _ => let y := fresh "v" in let E := fresh in destruct (o_div o x z) as [y|] eqn:E; cbn [bind]; [apply (div_b64 x z) in E; [|b64|b64]|discriminate]
  end.
Lemma datum_b64 e : datum_e o = Ok e -> is_b64 e.
Proof. unfold datum_e. do 3 go. intros X. apply sqrt_b64 in X; [exact X|b64]. Qed.
Lemma lat_b64 fuel : forall e z q bi b n, is_b64 e -> is_b64 z -> is_b64 q -> is_b64 bi -> lat_loop o fuel e z q bi = Ok (b, n) -> is_b64 b /\ is_b64 n.
Proof.
  induction fuel as [|fuel IH]; intros e z q bi b n He Hz Hq Hb; [discriminate|]. cbn [lat_loop]. do 5 go. cbv zeta.
  assert (Hn : is_b64 (o_atan2 o (o_add o z (o_mul o (o_mul o v3 v) v0)) q)) by b64.
  destruct (o_leb o _ _); [|now apply IH]. intros X. injection X as <- <-. auto.
Qed.
Lemma lbh_b64 fuel x y z l b h : is_b64 x -> is_b64 y -> is_b64 z -> xyz2lbh o fuel x y z = Ok (l, b, h) -> is_b64 l /\ is_b64 b /\ is_b64 h.
Proof.
  intros Hx Hy Hz. unfold xyz2lbh. destruct (datum_e o) as [e|] eqn:Ee; cbn [bind]; [apply datum_b64 in Ee|discriminate]. do 3 go.
  match goal with |- bind ?r _ = Ok _ -> _ => destruct r as [ll|] eqn:El; cbn [bind]; [|discriminate] end.
  assert (Hl : is_b64 ll).
  { revert El. destruct (o_eqb o x (o_int o 0)); [destruct (o_ltb o (o_int o 0) y)|]; intros El; [apply div_b64 in El; [exact El|b64|b64]|apply div_b64 in El; [exact El|b64|b64]|].
    replace ll with (o_atan2 o y x) by congruence. b64. }
  do 3 go. destruct (lat_loop o fuel e z v1 v4) as [[bb n]|] eqn:Eb; cbn [bind]; [apply lat_b64 in Eb; [destruct Eb|b64..]|discriminate]. do 3 go.
  intros X. match type of X with Ok (_, _, ?t) = _ => assert (X1 : ll = l) by congruence; assert (X2 : bb = b) by congruence; assert (X3 : t = h) by congruence end.
  rewrite <- X1, <- X2, <- X3. split; [exact Hl|]. split; [assumption|b64].
Qed.
Lemma deg_b64 fuel x y z r : is_b64 x -> is_b64 y -> is_b64 z -> xyz2lbh_deg o fuel x y z = Ok r -> is_b64_3 r.
Proof.
  intros Hx Hy Hz. unfold xyz2lbh_deg. destruct (xyz2lbh o fuel x y z) as [[[l b] h]|e] eqn:E.
  - apply lbh_b64 in E; try assumption. destruct E as [E1 [E2 E3]]. do 2 go. intros X. match type of X with Ok ?t = _ => assert (X1 : t = r) by congruence end. rewrite <- X1. split; [|split; assumption]. destruct (o_ltb o v (o_int o 0)); b64.
  - destruct (existsb _ _); [|discriminate]. intros X. match type of X with Ok ?t = _ => assert (X1 : t = r) by congruence end. rewrite <- X1. split; [b64|split; b64].
Qed.
End Geodetic.

(** Lemmas for C79-C82: the function of the height and its iteration. *)
From Coq Require Import List Reals Lia Lra Psatz Bool Ranalysis5 ZArith.
From Verif Require Import NewtonModel NewtonSpec NewtonProofs NewtonProofs2 ShallowModel ShallowSpec ShallowProofs ShallowProofs2 RiemannProofs4.
Import ListNotations.
Local Open Scope R_scope.

Section Psi.
Variables (g : R) (q : water).
Hypothesis Hg : 0 < g.
Hypothesis Hq : 0 < height q.
Let h0 := height q.

Definition root (h : R) : R := sqrt (1 / 2 * g * (1 / h + 1 / height q)).
Definition psi_s (h : R) : R := (h - height q) * root h.
Definition psi_r (h : R) : R := 2 * (sqrt (g * h) - sqrt (g * height q)).
Definition dpsi_s (h : R) : R := root h - 1 / 4 * g * (h - height q) / (h * h * root h).
Definition dpsi_r (h : R) : R := g / sqrt (g * h).
Definition dpsi (h : R) : R := if Rlt_dec h (height q) then dpsi_r h else dpsi_s h.

Lemma psi_eq h : psi g q h = if Rlt_dec h h0 then psi_r h else psi_s h.
Proof. reflexivity. Qed.

Lemma root_spec h : 0 < h -> 0 < root h /\ root h * root h = 1 / 2 * g * (1 / h + 1 / h0).
Proof.
  intros H. pose proof (shock_root_positive g q Hg Hq h H) as P. split; [apply sqrt_lt_R0; exact P | apply sqrt_sqrt; apply Rlt_le; exact P].
Qed.

Lemma df_side_dpsi s h : s = 1 \/ s = -1 -> 0 < h -> df_side g q s h = Fin (- s * dpsi h).
Proof.
  intros Hs H. unfold df_side, dpsi. fold h0. destruct (Rlt_dec h h0) as [L|L].
  - assert (0 < g * h) as P by (apply Rmult_lt_0_compat; lra).
    unfold dsqrt. destruct (Rlt_dec (g * h) 0); [lra|]. cbn [dquot]. pose proof (sqrt_lt_R0 _ P).
    destruct (Req_EM_T (sqrt (g * h)) 0); [lra|]. cbn [daffine]. f_equal. unfold dpsi_r. ring.
  - cbv zeta. f_equal. unfold dpsi_s, root, h0. clear. set (z := sqrt _). clearbody z. unfold Rdiv. ring.
Qed.

Lemma derivable_shock h : 0 < h -> derivable_pt_lim psi_s h (dpsi_s h).
Proof.
  intros H. destruct (root_spec h H) as [R1 R2]. assert (0 < h0) as H0 by exact Hq.
  assert (derivable_pt_lim (fun x => 1 / 2 * g * (1 / x + 1 / h0)) h (- (1 / 2 * g) / (h * h))) as D1.
  { replace (- (1 / 2 * g) / (h * h)) with (1 / 2 * g * ((0 * h - 1 * 1) / Rsqr h + 0)) by (unfold Rsqr; field; lra).
    apply (derivable_pt_lim_scal (fun x => 1 / x + 1 / h0)).
    apply (derivable_pt_lim_plus (fun x => 1 / x) (fct_cte (1 / h0))); [|apply derivable_pt_lim_const].
    apply (derivable_pt_lim_div (fct_cte 1) id); [apply derivable_pt_lim_const | apply derivable_pt_lim_id | unfold id; lra]. }
  assert (derivable_pt_lim root h (/ (2 * root h) * (- (1 / 2 * g) / (h * h)))) as D2.
  { apply (derivable_pt_lim_comp (fun x => 1 / 2 * g * (1 / x + 1 / h0)) sqrt); [exact D1|].
    apply derivable_pt_lim_sqrt. apply (shock_root_positive g q Hg Hq h H). }
  assert (derivable_pt_lim (fun x => x - h0) h 1) as D3.
  { replace 1 with (1 - 0) by ring. apply (derivable_pt_lim_minus id (fct_cte h0)); [apply derivable_pt_lim_id | apply derivable_pt_lim_const]. }
  pose proof (derivable_pt_lim_mult _ _ _ _ _ D3 D2) as D.
  replace (dpsi_s h) with (1 * root h + (h - h0) * (/ (2 * root h) * (- (1 / 2 * g) / (h * h)))); [exact D|].
  unfold dpsi_s. fold h0. field. lra.
Qed.

Lemma derivable_rarefaction h : 0 < h -> derivable_pt_lim psi_r h (dpsi_r h).
Proof.
  intros H. assert (0 < g * h) as P by (apply Rmult_lt_0_compat; lra). pose proof (sqrt_lt_R0 _ P) as SP.
  assert (derivable_pt_lim (fun x => g * x) h g) as D1.
  { pose proof (derivable_pt_lim_scal id g h 1 (derivable_pt_lim_id h)) as D0. rewrite Rmult_1_r in D0. exact D0. }
  assert (derivable_pt_lim (fun x => sqrt (g * x)) h (/ (2 * sqrt (g * h)) * g)) as D2.
  { apply (derivable_pt_lim_comp (fun x => g * x) sqrt); [exact D1|]. apply derivable_pt_lim_sqrt. exact P. }
  replace (dpsi_r h) with (2 * (/ (2 * sqrt (g * h)) * g - 0)) by (unfold dpsi_r; field; lra).
  apply (derivable_pt_lim_scal (fun x => sqrt (g * x) - sqrt (g * height q))).
  apply (derivable_pt_lim_minus (fun x => sqrt (g * x)) (fct_cte (sqrt (g * height q)))); [exact D2 | apply derivable_pt_lim_const].
Qed.

Lemma dpsi_s_h0 : dpsi_s h0 = dpsi_r h0.
Proof.
  assert (0 < h0) as H0 by exact Hq. destruct (root_spec h0 H0) as [R1 R2].
  assert (0 < g * h0) as P by (apply Rmult_lt_0_compat; lra). pose proof (sqrt_lt_R0 _ P) as SP.
  pose proof (sqrt_sqrt _ (Rlt_le _ _ P)) as SS.
  assert (dpsi_s h0 = root h0) as -> by (unfold dpsi_s; fold h0; field; lra).
  unfold dpsi_r. set (z := sqrt (g * h0)) in *. clearbody z.
  assert (root h0 * root h0 = g / z * (g / z)) as E.
  { rewrite R2. replace (g / z * (g / z)) with (g * g / (z * z)) by (field; lra). rewrite SS. field. lra. }
  apply Rsqr_inj; [lra| |exact E]. apply Rlt_le, Rdiv_lt_0_compat; lra.
Qed.

Lemma psi_s_h0 : psi_s h0 = 0.
Proof. unfold psi_s. fold h0. ring. Qed.
Lemma psi_r_h0 : psi_r h0 = 0.
Proof. unfold psi_r. fold h0. ring. Qed.
Lemma psi_h0 : psi g q h0 = 0.
Proof. rewrite psi_eq. destruct (Rlt_dec h0 h0); [lra|apply psi_s_h0]. Qed.

Lemma derivable_psi h : 0 < h -> derivable_pt_lim (psi g q) h (dpsi h).
Proof.
  intros H. assert (0 < h0) as H0 by exact Hq. unfold dpsi. fold h0.
  destruct (Rtotal_order h h0) as [L|[-> |L]].
  - destruct (Rlt_dec h h0); [|lra]. apply derivable_near with psi_r (h0 - h); [lra| |apply derivable_rarefaction; exact H].
    intros x Hx. rewrite psi_eq. destruct (Rlt_dec x h0); [reflexivity|lra].
  - destruct (Rlt_dec h0 h0); [lra|]. apply derivable_glue with psi_r psi_s.
    + intros x Hx. rewrite psi_eq. destruct (Rlt_dec x h0); [reflexivity|]. assert (x = h0) as -> by lra.
      rewrite psi_r_h0, psi_s_h0. reflexivity.
    + intros x Hx. rewrite psi_eq. destruct (Rlt_dec x h0); [lra|reflexivity].
    + rewrite psi_r_h0, psi_s_h0. reflexivity.
    + rewrite dpsi_s_h0. apply derivable_rarefaction. exact H.
    + apply derivable_shock. exact H.
  - destruct (Rlt_dec h h0); [lra|]. apply derivable_near with psi_s (h - h0); [lra| |apply derivable_shock; lra].
    intros x Hx. rewrite psi_eq. destruct (Rlt_dec x h0); [lra|reflexivity].
Qed.

(** The slope of the shock branch: its square is a monotone function of h0 / h *)
Lemma dpsi_s_alt h : 0 < h -> 0 < dpsi_s h /\
  dpsi_s h * dpsi_s h = g / (8 * h0) * ((2 + h0 / h + h0 / h * (h0 / h)) * (2 + h0 / h + h0 / h * (h0 / h)) / (1 + h0 / h)).
Proof.
  intros H. assert (0 < h0) as H0 by exact Hq. destruct (root_spec h H) as [R1 R2].
  assert (dpsi_s h = g / (4 * h0) * (2 + h0 / h + h0 / h * (h0 / h)) / root h) as E.
  { unfold dpsi_s. fold h0. replace (root h - 1 / 4 * g * (h - h0) / (h * h * root h)) with ((root h * root h - 1 / 4 * g * (h - h0) / (h * h)) / root h) by (field; lra).
    rewrite R2. field. lra. }
  assert (0 < h0 / h) as Y by (apply Rdiv_lt_0_compat; lra). split.
  - rewrite E. apply Rdiv_lt_0_compat; [|exact R1]. apply Rmult_lt_0_compat; [apply Rdiv_lt_0_compat; lra|].
    assert (0 < h0 / h * (h0 / h)) by (apply Rmult_lt_0_compat; assumption). lra.
  - rewrite E. set (y := h0 / h) in *.
    assert (root h * root h = g / (2 * h0) * (1 + y)) as R3 by (rewrite R2; unfold y; field; lra).
    replace (g / (4 * h0) * (2 + y + y * y) / root h * (g / (4 * h0) * (2 + y + y * y) / root h))
      with (g / (4 * h0) * (g / (4 * h0)) * ((2 + y + y * y) * (2 + y + y * y)) / (root h * root h)) by (field; lra).
    rewrite R3. clearbody y. field. lra.
Qed.

Lemma dpsi_s_antitone x y : 0 < x -> x <= y -> dpsi_s y <= dpsi_s x.
Proof.
  intros H1 H2. assert (0 < h0) as H0 by exact Hq.
  destruct (dpsi_s_alt x H1) as [Px Ex]. destruct (dpsi_s_alt y ltac:(lra)) as [Py Ey].
  apply Rsqr_incr_0_var; [|lra]. unfold Rsqr. rewrite Ex, Ey.
  assert (0 < h0 / y) as Y by (apply Rdiv_lt_0_compat; lra).
  assert (h0 / y <= h0 / x) as L by (unfold Rdiv; apply Rmult_le_compat_l; [lra|]; apply Rinv_le_contravar; lra).
  set (a := h0 / y) in *. set (b := h0 / x) in *. clearbody a b.
  apply Rmult_le_compat_l; [apply Rlt_le, Rdiv_lt_0_compat; lra|].
  apply Rmult_le_reg_r with ((1 + a) * (1 + b)); [apply Rmult_lt_0_compat; lra|].
  replace ((2 + a + a * a) * (2 + a + a * a) / (1 + a) * ((1 + a) * (1 + b))) with ((2 + a + a * a) * (2 + a + a * a) * (1 + b)) by (field; lra).
  replace ((2 + b + b * b) * (2 + b + b * b) / (1 + b) * ((1 + a) * (1 + b))) with ((2 + b + b * b) * (2 + b + b * b) * (1 + a)) by (field; lra).
  assert (0 <= (b - a) * (5 * (a + b) + 2 * (a * a + a * b + b * b) + (a + b) * (a * a + b * b) +
                          a * b * (5 + 2 * (a + b) + (a * a + a * b + b * b)))) as K.
  { apply Rmult_le_pos; [lra|]. assert (0 <= a * b) by (apply Rmult_le_pos; lra). assert (0 <= a * a) by (apply Rle_0_sqr).
    assert (0 <= b * b) by (apply Rle_0_sqr). assert (0 <= (a + b) * (a * a + b * b)) by (apply Rmult_le_pos; lra).
    assert (0 <= a * b * (5 + 2 * (a + b) + (a * a + a * b + b * b))) by (apply Rmult_le_pos; lra). lra. }
  apply Rminus_le. match goal with |- ?l <= 0 => match type of K with 0 <= ?k => replace l with (- k) by ring end end. lra.
Qed.

Lemma dpsi_r_antitone x y : 0 < x -> x <= y -> dpsi_r y <= dpsi_r x.
Proof.
  intros H1 H2. unfold dpsi_r, Rdiv. apply Rmult_le_compat_l; [lra|].
  apply Rinv_le_contravar; [apply sqrt_lt_R0, Rmult_lt_0_compat; lra|]. apply sqrt_le_1_alt. apply Rmult_le_compat_l; lra.
Qed.

Lemma dpsi_positive h : 0 < h -> 0 < dpsi h.
Proof.
  intros H. unfold dpsi. destruct (Rlt_dec h (height q)); [|apply dpsi_s_alt; exact H].
  apply Rdiv_lt_0_compat; [exact Hg|]. apply sqrt_lt_R0, Rmult_lt_0_compat; lra.
Qed.

Lemma dpsi_antitone x y : 0 < x -> x <= y -> dpsi y <= dpsi x.
Proof.
  intros H1 H2. assert (0 < h0) as H0 by exact Hq. unfold dpsi. fold h0.
  destruct (Rlt_dec y h0) as [Ly|Ly]; destruct (Rlt_dec x h0) as [Lx|Lx]; try lra.
  - apply dpsi_r_antitone; lra.
  - apply Rle_trans with (dpsi_s h0); [apply dpsi_s_antitone; lra|]. rewrite dpsi_s_h0. apply dpsi_r_antitone; lra.
  - apply dpsi_s_antitone; lra.
Qed.

Lemma psi_increasing x y : 0 < x -> x < y -> psi g q x < psi g q y.
Proof.
  intros H1 H2. destruct (MVT_cor2 (psi g q) dpsi x y H2) as (c & E & Hc).
  - intros c Hc. apply derivable_psi. lra.
  - assert (0 < dpsi c * (y - x)) by (apply Rmult_lt_0_compat; [apply dpsi_positive|]; lra). lra.
Qed.

Lemma psi_tangent x y : 0 < x -> 0 < y -> psi g q y <= psi g q x + dpsi x * (y - x).
Proof.
  intros H1 H2. destruct (Rtotal_order x y) as [L|[-> |L]].
  - destruct (MVT_cor2 (psi g q) dpsi x y L) as (c & E & Hc).
    + intros c Hc. apply derivable_psi. lra.
    + pose proof (dpsi_antitone x c H1 ltac:(lra)). assert (dpsi c * (y - x) <= dpsi x * (y - x)) by (apply Rmult_le_compat_r; lra). lra.
  - lra.
  - destruct (MVT_cor2 (psi g q) dpsi y x L) as (c & E & Hc).
    + intros c Hc. apply derivable_psi. lra.
    + pose proof (dpsi_antitone c x ltac:(lra) ltac:(lra)). assert (dpsi x * (x - y) <= dpsi c * (x - y)) by (apply Rmult_le_compat_r; lra). lra.
Qed.

Lemma psi_above h : 0 < h -> - (2 * sqrt (g * height q)) < psi g q h.
Proof.
  intros H. assert (0 < h0) as H0 by exact Hq. rewrite psi_eq. fold h0. destruct (Rlt_dec h h0).
  - unfold psi_r. fold h0. assert (0 < sqrt (g * h)) by (apply sqrt_lt_R0, Rmult_lt_0_compat; lra). lra.
  - destruct (root_spec h H) as [R1 _]. assert (0 < sqrt (g * h0)) by (apply sqrt_lt_R0, Rmult_lt_0_compat; lra).
    assert (0 <= psi_s h); [|lra]. unfold psi_s. fold h0. apply Rmult_le_pos; lra.
Qed.

Lemma psi_small e : 0 < e -> exists h, 0 < h /\ forall x, 0 < x <= h -> psi g q x < - (2 * sqrt (g * height q)) + e.
Proof.
  intros H. assert (0 < h0) as H0 by exact Hq. exists (Rmin (h0 / 2) (e * e / (16 * g))).
  pose proof (Rmin_l (h0 / 2) (e * e / (16 * g))) as M1. pose proof (Rmin_r (h0 / 2) (e * e / (16 * g))) as M2.
  split. { apply Rmin_glb_lt; [lra|]. apply Rdiv_lt_0_compat; [|lra]. apply Rmult_lt_0_compat; lra. }
  intros x Hx. rewrite psi_eq. destruct (Rlt_dec x h0); [|lra]. unfold psi_r. fold h0.
  assert (sqrt (g * x) <= e / 4); [|lra].
  rewrite <- (sqrt_square (e / 4)) by lra. apply sqrt_le_1_alt.
  apply Rle_trans with (g * (e * e / (16 * g))); [apply Rmult_le_compat_l; lra|]. right. field. lra.
Qed.

Lemma psi_large M : exists h, 0 < h /\ forall x, h <= x -> M < psi g q x.
Proof.
  assert (0 < h0) as H0 by exact Hq. set (z := sqrt (1 / 2 * g * (1 / h0))).
  assert (0 < 1 / h0) as I0 by (apply Rdiv_lt_0_compat; lra).
  assert (0 < z) as Z by (apply sqrt_lt_R0, Rmult_lt_0_compat; lra).
  set (N := Rabs M + 1). assert (0 < N) as PN by (unfold N; pose proof (Rabs_pos M); lra).
  assert (0 < N / z) by (apply Rdiv_lt_0_compat; lra).
  exists (h0 + N / z). split; [lra|]. intros x Hx.
  apply Rlt_le_trans with N; [unfold N; pose proof (Rle_abs M); lra|].
  rewrite psi_eq. destruct (Rlt_dec x h0); [lra|]. unfold psi_s. fold h0.
  apply Rle_trans with (N / z * z); [right; field; lra|].
  apply Rmult_le_compat; try lra. unfold root, z. fold h0. apply sqrt_le_1_alt. apply Rmult_le_compat_l; [lra|].
  assert (0 < 1 / x) by (apply Rdiv_lt_0_compat; lra). lra.
Qed.

(** Values at zero *)
Lemma f_side_zero d s : f_side g d q s 0 = Fin (speed_of d q + s * (2 * sqrt (g * height q))).
Proof.
  unfold f_side. destruct (Rlt_dec 0 (height q)); [|contradiction]. rewrite Rmult_0_r. unfold dsqrt.
  destruct (Rlt_dec 0 0); [lra|]. rewrite sqrt_0. cbn [daffine]. f_equal. ring.
Qed.

Lemma df_side_zero s : s = 1 \/ s = -1 -> df_side g q s 0 = if Rlt_dec 0 (- s) then PInf else NInf.
Proof.
  intros Hs. unfold df_side. destruct (Rlt_dec 0 (height q)); [|contradiction]. rewrite Rmult_0_r. unfold dsqrt.
  destruct (Rlt_dec 0 0); [lra|]. rewrite sqrt_0. cbn [dquot]. destruct (Req_EM_T 0 0); [reflexivity|lra].
Qed.
End Psi.

(** ** The function of the height *)

Section Height.
Variables (g : R) (d : bool) (l r : water).
Hypothesis Hg : 0 < g.
Hypothesis Hl : 0 < height l.
Hypothesis Hr : 0 < height r.

Definition F (h : R) : R := psi g r h + psi g l h + (speed_of d r - speed_of d l).
Definition DF (h : R) : R := dpsi g r h + dpsi g l h.

Lemma f_height_F h : 0 < h -> f_height g d l r h = Fin (F h).
Proof.
  intros H. unfold f_height. rewrite (f_side_psi g r d (-1) Hg Hr h H), (f_side_psi g l d 1 Hg Hl h H). cbn [dsub]. f_equal. unfold F. ring.
Qed.

Lemma df_height_DF h : 0 < h -> df_height g l r h = Fin (DF h).
Proof.
  intros H. unfold df_height. rewrite (df_side_dpsi g r Hg (-1) h minus_sign H), (df_side_dpsi g l Hg 1 h one_sign H). cbn [dsub].
  f_equal. unfold DF. ring.
Qed.

Lemma F_increasing x y : 0 < x -> x < y -> F x < F y.
Proof.
  intros H1 H2. unfold F. pose proof (psi_increasing g l Hg Hl x y H1 H2). pose proof (psi_increasing g r Hg Hr x y H1 H2). lra.
Qed.

Lemma F_tangent x y : 0 < x -> 0 < y -> F y <= F x + DF x * (y - x).
Proof.
  intros H1 H2. unfold F, DF. pose proof (psi_tangent g l Hg Hl x y H1 H2). pose proof (psi_tangent g r Hg Hr x y H1 H2). lra.
Qed.

Lemma DF_positive x : 0 < x -> 0 < DF x.
Proof.
  intros H. unfold DF. pose proof (dpsi_positive g l Hg Hl x H). pose proof (dpsi_positive g r Hg Hr x H). lra.
Qed.

Lemma F_continuous x : 0 < x -> continuity_pt F x.
Proof.
  intros H. apply derivable_continuous_pt. exists (DF x). unfold F, DF.
  replace (dpsi g r x + dpsi g l x) with (dpsi g r x + dpsi g l x + 0) by ring.
  apply (derivable_pt_lim_plus (fun p => psi g r p + psi g l p) (fct_cte _)); [|apply derivable_pt_lim_const].
  apply derivable_pt_lim_plus; apply derivable_psi; auto.
Qed.

Lemma root_exists : ~ dry g d l r -> exists h, 0 < h /\ F h = 0.
Proof.
  intros V. unfold dry in V. fold (speed_of d r) (speed_of d l) in V.
  set (gap := 2 * (sqrt (g * height l) + sqrt (g * height r)) - (speed_of d r - speed_of d l)).
  assert (0 < gap) as G by (unfold gap; lra).
  destruct (psi_small g l Hg Hl (gap / 2) ltac:(lra)) as (pl & Pl & Sl).
  destruct (psi_small g r Hg Hr (gap / 2) ltac:(lra)) as (pr & Pr & Sr).
  destruct (psi_large g l Hg Hl (Rabs (speed_of d r - speed_of d l))) as (ql & Ql & Ll).
  destruct (psi_large g r Hg Hr 0) as (qr & Qr & Lr).
  set (a := Rmin pl pr). set (b := Rmax ql qr).
  assert (0 < a) as Pa by (apply Rmin_glb_lt; lra).
  assert (F a < 0) as Fa.
  { pose proof (Rmin_l pl pr). pose proof (Rmin_r pl pr). unfold F. specialize (Sl a ltac:(unfold a in *; lra)).
    specialize (Sr a ltac:(unfold a in *; lra)). unfold gap in *. lra. }
  assert (0 < F b) as Fb.
  { pose proof (Rmax_l ql qr). pose proof (Rmax_r ql qr). unfold F. specialize (Ll b ltac:(unfold b in *; lra)).
    specialize (Lr b ltac:(unfold b in *; lra)).
    assert (- (speed_of d r - speed_of d l) <= Rabs (speed_of d r - speed_of d l)) by (rewrite <- Rabs_Ropp; apply Rle_abs). lra. }
  assert (0 < b) as Pb by (unfold b; pose proof (Rmax_l ql qr); lra).
  assert (a < b) as AB.
  { destruct (Rlt_dec a b); auto. exfalso. destruct (Req_dec a b) as [E|N]; [rewrite E in Fa; lra|].
    pose proof (F_increasing b a Pb ltac:(lra)). lra. }
  destruct (IVT_interv F a b) as (z & Hz & Ez); auto.
  - intros x Hx. apply F_continuous. lra.
  - exists z. split; [lra|exact Ez].
Qed.

Lemma root_unique p p' : 0 < p -> 0 < p' -> F p = 0 -> F p' = 0 -> p = p'.
Proof.
  intros H1 H2 E1 E2. destruct (Rtotal_order p p') as [L|[L|L]]; auto; exfalso.
  - pose proof (F_increasing p p' H1 L). lra.
  - pose proof (F_increasing p' p H2 L). lra.
Qed.

Lemma dry_above h gap : 0 < h -> 2 * (sqrt (g * height l) + sqrt (g * height r)) + gap <= speed_of d r - speed_of d l -> gap < F h.
Proof.
  intros H V. unfold F. pose proof (psi_above g l Hg Hl h H). pose proof (psi_above g r Hg Hr h H). lra.
Qed.

(** the residual bounds the error of the velocity *)
Lemma velocity_error h hs : 0 < h -> 0 < hs -> F hs = 0 ->
  Rabs ((speed_of d l - psi g l h) - (speed_of d l - psi g l hs)) <= Rabs (F h).
Proof.
  intros H Hs E. unfold F in *. destruct (Rtotal_order h hs) as [L|[-> |L]].
  - pose proof (psi_increasing g l Hg Hl h hs H L). pose proof (psi_increasing g r Hg Hr h hs H L).
    rewrite (Rabs_left1 (psi g r h + psi g l h + (speed_of d r - speed_of d l))) by lra. apply Rabs_le. lra.
  - rewrite Rminus_diag_eq, Rabs_R0 by reflexivity. apply Rabs_pos.
  - pose proof (psi_increasing g l Hg Hl hs h Hs L). pose proof (psi_increasing g r Hg Hr hs h Hs L).
    rewrite (Rabs_right (psi g r h + psi g l h + (speed_of d r - speed_of d l))) by lra. apply Rabs_le. lra.
Qed.

Lemma mean_positive : 0 < 1 / 2 * (height l + height r).
Proof. lra. Qed.

Lemma tol_positive : 0 < / 10 ^ 7.
Proof. apply Rinv_0_lt_compat. apply pow_lt. lra. Qed.

Lemma root_velocities hM uM : 0 < hM -> f_height g d l r hM = Fin 0 -> f_side g d l 1 hM = Fin uM ->
  F hM = 0 /\ uM = speed_of d l - 1 * psi g l hM /\ uM = speed_of d r - -1 * psi g r hM.
Proof.
  intros H E1 E2. rewrite f_height_F in E1 by exact H. injection E1 as E1.
  rewrite (f_side_psi g l d 1 Hg Hl hM H) in E2. injection E2 as E2. unfold F in *. repeat split; lra.
Qed.

Lemma f_height_zero : f_height g d l r 0 = Fin (speed_of d r - speed_of d l - 2 * (sqrt (g * height l) + sqrt (g * height r))).
Proof.
  unfold f_height. rewrite (f_side_zero g r Hr), (f_side_zero g l Hl). cbn [dsub]. f_equal. ring.
Qed.

Lemma df_height_zero : df_height g l r 0 = PInf.
Proof.
  unfold df_height. rewrite (df_side_zero g r Hr) by (right; reflexivity). rewrite (df_side_zero g l Hl) by (left; reflexivity).
  destruct (Rlt_dec 0 (- -1)); [|lra]. destruct (Rlt_dec 0 (- (1))); [lra|reflexivity].
Qed.

(** Dry ground: the iteration cannot succeed *)
Lemma dry_loop tol n : tol < speed_of d r - speed_of d l - 2 * (sqrt (g * height l) + sqrt (g * height r)) -> 0 < tol ->
  forall x, 0 <= x ->
  let '(y, fy, k) := newton_loop (f_height g d l r) (df_height g l r) tol n x (f_height g d l r x) in
  k = O /\ gt fy tol = true.
Proof.
  intros Hgap Htol.
  assert (forall x, 0 <= x -> exists v, f_height g d l r x = Fin v /\ tol < v) as V.
  { intros x Hx. destruct (Req_dec x 0) as [-> | N].
    - rewrite f_height_zero. eexists. split; [reflexivity|lra].
    - rewrite f_height_F by lra. eexists. split; [reflexivity|]. apply dry_above; lra. }
  induction n as [|n IH]; intros x Hx; cbn [newton_loop].
  - split; [reflexivity|]. destruct (V x Hx) as (v & -> & Hv). unfold gt. destruct (Rlt_dec tol v); [reflexivity|lra].
  - destruct (V x Hx) as (v & E & Hv). rewrite E. cbn [abs_gt]. destruct (Rlt_dec tol (Rabs v)) as [_|N].
    2:{ exfalso. apply N. rewrite Rabs_right by lra. exact Hv. }
    apply IH. unfold next_x. destruct (next_value _ _ _) as [z|]; [|lra]. destruct (Rlt_dec z 0); lra.
Qed.

Lemma dry_exception : / 10 ^ 7 < speed_of d r - speed_of d l - 2 * (sqrt (g * height l) + sqrt (g * height r)) ->
  ComputeMiddleState g d l r = Exception.
Proof.
  intros H. unfold ComputeMiddleState, NewtonIteration.
  pose proof (dry_loop (/ 10 ^ 7) (Z.to_nat 5000) H tol_positive _ (Rlt_le _ _ mean_positive)) as L.
  destruct (newton_loop _ _ _ _ _ _) as [[y fy] k]. destruct L as [-> ->]. reflexivity.
Qed.

Lemma middle_result_cases h u : ComputeMiddleState g d l r = Middle h u -> 0 < h ->
  u = speed_of d l - psi g l h /\ (Rabs (F h) <= / 10 ^ 7 \/ F h < - / 10 ^ 7).
Proof.
  unfold ComputeMiddleState. intros E Hp.
  destruct (NewtonIteration _ _ _ _ _) as [x|x] eqn:EN; [|discriminate].
  assert (x = h) as Exp by (destruct (f_side g d l 1 x); congruence). subst x.
  rewrite (f_side_psi g l d 1 Hg Hl h Hp) in E. injection E as E. split; [lra|].
  apply newton_returns in EN; [|lia]. unfold solves, below in EN. rewrite f_height_F in EN by exact Hp.
  destruct EN as [N | [(v & Ev & Hv) | [N | (v & Ev & Hv)]]]; try discriminate.
  - injection Ev as <-. left. apply Rabs_le. exact Hv.
  - injection Ev as <-. right. exact Hv.
Qed.

Lemma converges hs x1 : 0 < hs -> F hs = 0 ->
  x1 = 1 / 2 * (height l + height r) - F (1 / 2 * (height l + height r)) / DF (1 / 2 * (height l + height r)) ->
  0 < x1 -> - F x1 * DF x1 <= / 10 ^ 7 * DF hs * 4 ^ Z.to_nat 4999 ->
  exists h u, ComputeMiddleState g d l r = Middle h u /\ 0 < h /\ Rabs (F h) <= / 10 ^ 7 /\ u = speed_of d l - psi g l h.
Proof.
  intros Hps E Ex Hx1 Hb. set (x0 := 1 / 2 * (height l + height r)) in *.
  pose proof mean_positive as P0. fold x0 in P0.
  pose proof (DF_positive x0 P0) as D0.
  assert (exists p, NewtonIteration (f_height g d l r) (df_height g l r) x0 (/ 10 ^ 7) 5000 = Returned p /\ 0 < p /\
                    Rabs (F p) <= / 10 ^ 7) as (p & EN & Hp & Ep).
  { assert (x1 <= hs) as B.
    { pose proof (F_tangent x0 hs P0 Hps) as T. rewrite E in T.
      apply Rmult_le_reg_l with (DF x0); [exact D0|]. rewrite Ex.
      replace (DF x0 * (x0 - F x0 / DF x0)) with (DF x0 * x0 - F x0) by (field; lra). lra. }
    pose proof (newton_below (f_height g d l r) (df_height g l r) F DF hs (/ 10 ^ 7)
      f_height_F df_height_DF DF_positive F_tangent Hps E tol_positive x1 4999 ltac:(lra) ltac:(lia) Hb) as (p & EN & Hp & Ep).
    unfold NewtonIteration in EN |- *. replace (Z.to_nat 5000) with (S (Z.to_nat 4999)) by lia. cbn [newton_loop].
    rewrite (f_height_F x0) by exact P0. cbn [abs_gt].
    destruct (Rlt_dec (/ 10 ^ 7) (Rabs (F x0))) as [L|L].
    - rewrite df_height_DF by exact P0. cbn [next_value].
      destruct (Req_EM_T (DF x0) 0); [lra|]. rewrite <- Ex. cbn [next_x].
      destruct (Rlt_dec x1 0); [lra|].
      destruct (newton_loop _ _ _ (Z.to_nat 4999) x1 _) as [[y fy] k].
      exists p. split; [|split; [lra|exact Ep]]. change (0 <=? 5000)%Z with true. change (0 <=? 4999)%Z with true in EN. exact EN.
    - exists x0. split; [cbn [Nat.eqb]; rewrite andb_false_r; reflexivity|]. split; [exact P0|lra]. }
  exists p, (speed_of d l - psi g l p).
  split; [|auto]. unfold ComputeMiddleState. fold x0. rewrite EN.
  rewrite (f_side_psi g l d 1 Hg Hl p Hp). f_equal. ring.
Qed.

Lemma stuck_loop tol n : tol < Rabs (speed_of d r - speed_of d l - 2 * (sqrt (g * height l) + sqrt (g * height r))) ->
  newton_loop (f_height g d l r) (df_height g l r) tol n 0 (f_height g d l r 0) = (0, f_height g d l r 0, O).
Proof.
  intros H. induction n as [|n IH]; [reflexivity|]. cbn [newton_loop].
  replace (abs_gt (f_height g d l r 0) tol) with true.
  2:{ rewrite f_height_zero. cbn [abs_gt]. destruct (Rlt_dec tol _); [reflexivity|contradiction]. }
  rewrite df_height_zero. replace (next_value 0 (f_height g d l r 0) PInf) with (Some 0) by (rewrite f_height_zero; reflexivity).
  cbn [next_x]. destruct (Rlt_dec 0 0); [lra|]. exact IH.
Qed.
End Height.

(** ** Identical states *)

Lemma equal_middle g q d : 0 < g -> 0 < height q -> ComputeMiddleState g d q q = Middle (height q) (speed_of d q).
Proof.
  intros Hg Hq. unfold ComputeMiddleState.
  replace (1 / 2 * (height q + height q)) with (height q) by field.
  assert (f_height g d q q (height q) = Fin 0) as E.
  { rewrite f_height_F by auto. f_equal. unfold F. rewrite psi_h0. ring. }
  unfold NewtonIteration. rewrite E.
  assert (forall n, newton_loop (f_height g d q q) (df_height g q q) (/ 10 ^ 7) n (height q) (Fin 0) = (height q, Fin 0, n)) as L.
  { intros [|n]; [reflexivity|]. cbn [newton_loop abs_gt]. rewrite Rabs_R0. pose proof tol_positive.
    destruct (Rlt_dec (/ 10 ^ 7) 0); [lra|reflexivity]. }
  rewrite L. replace (gt (Fin 0) (/ 10 ^ 7)) with false
    by (unfold gt; pose proof tol_positive; destruct (Rlt_dec (/ 10 ^ 7) 0); [lra|reflexivity]).
  rewrite andb_false_r. rewrite (f_side_psi g q d 1 Hg Hq _ Hq). f_equal. rewrite psi_h0. ring.
Qed.

Lemma equal_wave g q d s x : 0 < g -> 0 < height q -> s = 1 \/ s = -1 -> wave g q d s (height q) (speed_of d q) x = q.
Proof.
  intros Hg Hq Hs.
  assert (speed_of d q = speed_of d q - s * psi g q (height q)) as U by (rewrite psi_h0; ring).
  assert (middle_of q d (height q) (speed_of d q) = q) as M by (apply prim_self; exact Hq).
  pose proof (fan_head g q d s Hg Hq Hs) as FH.
  unfold wave. destruct (Rlt_dec (s * x) _) as [A|A]; [reflexivity|].
  unfold head, tail in *. destruct (Rlt_dec (height q) (height q)); [lra|].
  destruct (Rlt_dec _ (s * x)) as [B|B]; [exact M|].
  assert (x = speed_of d q - s * sqrt (g * height q)) as ->; [|exact FH].
  apply Rmult_eq_reg_l with s; [lra|destruct Hs; lra].
Qed.

Lemma equal_solution g q d x : 0 < g -> 0 < height q -> solution g q q d (height q) (speed_of d q) x = q.
Proof.
  intros Hg Hq. unfold solution. destruct (Rle_dec x _); apply equal_wave; auto using one_sign, minus_sign.
Qed.

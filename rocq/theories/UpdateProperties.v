(** Properties C17 and C18: conservative update and vectorised loops. *)
From Coq Require Import List ZArith Reals Lia Lra.
From Verif Require Import ArrayModel ArraySpec ArrayProofs BoxProofs UpdateModel UpdateSpec UpdateProofs UpdateProofs2 UpdateProofs3 UpdateProofs4
  UpdateExamples.
Import ListNotations.
Local Open Scope Z_scope.

(** ** C17 *)

(** Every cell of the box gets the old value plus dt/dx times the difference of its two face fluxes (all
    taken before the call, even if the update is in place); nothing else in memory changes. *)
Theorem C17_update_cells : forall m next prev fluxes dt dx dir,
  view_ok next -> update_data_ok m next prev fluxes dir ->
  exists m', UpdateConservatively_seq m next prev fluxes dt dx dir = Finished m' /\
  (forall c, in_box (pdv_box next) c ->
     m' (pdv_at next c) =
     Some (val m (pdv_at prev c) + dt / dx * (val m (pdv_at fluxes c) - val m (pdv_at fluxes (Shift c dir 1))))%R) /\
  (forall a, (forall c, in_box (pdv_box next) c -> a <> pdv_at next c) -> m' a = m a).
Proof. exact update_seq_pointwise. Qed.
Print Assumptions C17_update_cells.

(** The sum over whole lines of cells (one line, all cells of one component, ...) changes by dt/dx times the
    difference of the fluxes at both ends of the lines. *)
Theorem C17_update_conserves : forall m m' next prev fluxes dt dx dir cells,
  view_ok next -> (dir < length (pdv_origin next))%nat -> update_data_ok m next prev fluxes dir ->
  UpdateConservatively_seq m next prev fluxes dt dx dir = Finished m' ->
  whole_lines (pdv_box next) dir cells ->
  Rsum (map (fun c => val m' (pdv_at next c)) cells) =
  (Rsum (map (fun c => val m (pdv_at prev c)) cells) +
   dt / dx * (Rsum (map (fun c => val m (pdv_at fluxes c))
                        (filter (fun c => Z.eqb (nth dir c 0%Z) (nth dir (lower (pdv_box next)) 0%Z)) cells)) -
              Rsum (map (fun c => val m (pdv_at fluxes (Shift c dir 1)))
                        (filter (fun c => Z.eqb (nth dir c 0%Z) (nth dir (upper (pdv_box next)) 0%Z - 1)%Z) cells))))%R.
Proof. exact update_total. Qed.
Print Assumptions C17_update_conserves.

(** The forward integrator of one tile updates exactly the cells of the tile whose two faces both have a
    flux, for the first [n_cons] components, in place. *)
Theorem C17_forward_integrator : forall n m state flux tile fbox n_cons dt dx dir,
  stored m (S n) state -> stored m (S n) flux -> apart state flux ->
  box_of_rank n tile -> box_of_rank n fbox -> (dir < n)%nat -> 0 < n_cons ->
  (forall c k, in_box tile c -> 0 <= k < n_cons -> in_box (pdv_box state) (c ++ [k])) ->
  (forall f k, in_box fbox f -> 0 <= k < n_cons -> in_box (pdv_box flux) (f ++ [k])) ->
  (exists c, in_box tile c /\ in_box fbox c /\ in_box fbox (Shift c dir 1)) ->
  exists m', ForwardIntegrator_fab m state flux tile fbox n_cons dt dx dir = Finished m' /\
    (forall c k, in_box tile c -> in_box fbox c -> in_box fbox (Shift c dir 1) -> 0 <= k < n_cons ->
       m' (pdv_at state (c ++ [k])) =
       Some (val m (pdv_at state (c ++ [k])) +
             dt / dx * (val m (pdv_at flux (c ++ [k])) - val m (pdv_at flux (Shift c dir 1 ++ [k]))))%R) /\
    (forall a, (forall c k, in_box tile c -> in_box fbox c -> in_box fbox (Shift c dir 1) -> 0 <= k < n_cons ->
                  a <> pdv_at state (c ++ [k])) -> m' a = m a).
Proof. exact forward_fab. Qed.
Print Assumptions C17_forward_integrator.

(** In-place update of a 3 x 2 patch: the hypotheses hold, cell (1,0) becomes 1 + 1/2 (11 - 12), and the
    second line of cells is a set of whole lines. *)
Example C17_example :
  view_ok ux_state /\ update_data_ok ux_memory ux_state ux_state ux_flux 0 /\
  pdv_at ux_state [1; 0; 0] = 1 /\ pdv_at ux_flux [1; 0; 0] = 11 /\ pdv_at ux_flux (Shift [1; 0; 0] 0 1) = 12 /\
  whole_lines (pdv_box ux_state) 0 [[0; 1; 0]; [1; 1; 0]; [2; 1; 0]] /\
  stored uf_memory 3 uf_state /\ stored uf_memory 3 uf_flux /\ apart uf_state uf_flux /\
  in_box uf_tile [0; 1] /\ in_box uf_faces [0; 1] /\ in_box uf_faces (Shift [0; 1] 0 1).
Proof.
  split; [reflexivity|]. split; [exact ux_ok|]. split; [reflexivity|]. split; [reflexivity|]. split; [reflexivity|].
  split.
  { split; [|split].
    - repeat constructor; cbn; intuition congruence.
    - intros c [<-|[<-|[<-|[]]]]; (split; [reflexivity|]; split; [reflexivity|]; intros r Hr; cbn in Hr; destruct r as [|[|[|r]]]; cbn; lia).
    - intros c k Hc Hb. destruct (ux_cells _ Hb) as (i & j & E & Hi & Hj).
      assert (0 <= nth 0 (Shift c 0 k) 0 < 3) as Hr by (rewrite E; cbn [nth]; lia).
      assert (exists t, Shift c 0 k = [t; 1; 0]) as (t & Et) by (destruct Hc as [<-|[<-|[<-|[]]]]; eexists; reflexivity).
      rewrite Et in Hr |- *. cbn [nth] in Hr. assert (t = 0 \/ t = 1 \/ t = 2) as [-> | [-> | ->]] by lia; cbn; auto. }
  split; [exact uf_state_stored|]. split; [exact uf_flux_stored|]. split; [exact uf_apart|].
  split; [apply box2_in; exists 0, 1; repeat split; lia|].
  split; [apply box2_in; exists 0, 1; repeat split; lia|].
  apply box2_in. exists 1, 1. repeat split; lia.
Qed.

(** ** C18 *)

(** The chunked loop over one row of [n] elements with a masked remainder, for any chunk width and any
    kernel that works lane by lane: it finishes, writes to element i of every destination what the scalar
    kernel computes from element i of every source, touches nothing else, and needs only the n elements of
    every row to be allocated. *)
Theorem C18_chunked_row : forall width ns nd kernel K stale m dests srcs n fuel,
  lanewise width ns nd kernel K -> (1 <= width)%nat -> (1 <= nd)%nat ->
  (forall n, (n <= width)%nat -> length (stale n) = (width - n)%nat) ->
  length dests = nd -> length srcs = ns -> (n < fuel)%nat ->
  let jobs := map (fun i => (map (fun p => p + Z.of_nat i) dests, map (fun p => p + Z.of_nat i) srcs)) (seq 0 n) in
  conflict_free jobs -> jobs_allocated jobs m ->
  exists m', chunk_loop width kernel stale fuel m (nth 0 dests 0 + Z.of_nat n) dests srcs = Finished m' /\
    (forall i j, (i < n)%nat -> (j < nd)%nat ->
       m' (nth j dests 0 + Z.of_nat i) = Some (nth j (K (map (fun p => val m (p + Z.of_nat i)) srcs)) 0%R)) /\
    (forall a, (forall i p, (i < n)%nat -> In p dests -> a <> p + Z.of_nat i) -> m' a = m a).
Proof.
  intros width ns nd kernel K stale m dests srcs n fuel Hl Hw Hnd Hs Ld Ls Hf jobs Hc Ha.
  destruct (chunk_loop_done width kernel K stale ns nd Hl Hw Hs Hnd fuel m (nth 0 dests 0 + Z.of_nat n) dests srcs n)
    as (m' & E & D1 & D2); try assumption; [reflexivity|].
  exists m'. split; [exact E|]. split.
  - intros i j Hi Hj.
    specialize (D1 (map (fun p => p + Z.of_nat i) dests, map (fun p => p + Z.of_nat i) srcs) j).
    cbn [fst snd] in D1. rewrite map_length, Ld in D1.
    rewrite (nth_indep _ 0 (0 + Z.of_nat i)) in D1 by (rewrite map_length; lia).
    rewrite (map_nth (fun p => p + Z.of_nat i)) in D1. rewrite map_map in D1. apply D1; [|assumption].
    apply in_map_iff. exists i. split; [reflexivity|]. apply in_seq. lia.
  - intros a H. apply D2. intros x Hx Hax. apply in_map_iff in Hx as (i & <- & Hi). apply in_seq in Hi.
    cbn [fst] in Hax. apply in_map_iff in Hax as (p & E' & Hp). apply (H i p); [lia|assumption|symmetry; assumption].
Qed.
Print Assumptions C18_chunked_row.

(** The vectorised conservative update of a patch and the sequential one leave the same memory, for every
    vector width, whatever is in the unused lanes of the remainder, in place or not. *)
Theorem C18_update : forall rank width stale m next prev fluxes dt dx dir,
  strided_view (S rank) next -> strided_view (S rank) prev -> strided_view (S rank) fluxes ->
  pdv_origin prev = pdv_origin next -> nth rank (pdv_origin next) 0 = 0 -> (dir < rank)%nat ->
  update_shape rank next -> (1 <= width)%nat ->
  (forall n, (n <= width)%nat -> length (stale n) = (width - n)%nat) ->
  update_data_ok m next prev fluxes dir ->
  exists N m', forall fuel, (N < fuel)%nat -> exists m'',
    UpdateConservatively_simd fuel width stale rank m next prev fluxes dt dx dir = Finished m'' /\
    UpdateConservatively_seq m next prev fluxes dt dx dir = Finished m' /\ forall a, m'' a = m' a.
Proof. exact update_simd_pointwise. Qed.
Print Assumptions C18_update.

(** Sequential fluxes: every face gets the numeric flux of its stencil, nothing else changes. *)
Theorem C18_sequential_fluxes : forall K m f0 fluxes states dir width,
  (dir < length (pdv_origin f0))%nat -> view_ok f0 ->
  (forall xs, length xs = (2 * width * length states)%nat -> length (K xs) = length (f0 :: fluxes)) ->
  flux_data_ok m (pdv_box f0) (f0 :: fluxes) states dir width ->
  exists m', ComputeNumericFluxes_seq K m (f0 :: fluxes) states dir width = Finished m' /\
    (forall f j, in_box (pdv_box f0) f -> (j < length (f0 :: fluxes))%nat ->
       m' (pdv_at (nth j (f0 :: fluxes) f0) f) =
       Some (nth j (K (flat_map (fun i => map (fun v => val m (pdv_at v (Shift f dir (Z.of_nat i - Z.of_nat width)))) states)
                                (seq 0 (2 * width)))) 0%R)) /\
    (forall a, (forall f v, in_box (pdv_box f0) f -> In v (f0 :: fluxes) -> a <> pdv_at v f) -> m' a = m a).
Proof. exact flux_seq_pointwise. Qed.
Print Assumptions C18_sequential_fluxes.

(** The vectorised computation of numeric fluxes leaves the same memory as the sequential one, for every
    stencil width, chunk size and number of components, and every flux function that works lane by lane. *)
Theorem C18_numeric_fluxes : forall rank chunk kernel K stale m f0 fluxes states dir width,
  Forall (strided_view rank) (f0 :: fluxes) -> Forall (strided_view rank) states ->
  Forall (fun v => pdv_origin v = pdv_origin f0) fluxes -> (dir < rank)%nat -> (1 <= width)%nat -> flux_shape rank f0 ->
  lanewise chunk (2 * width * length states) (length (f0 :: fluxes)) kernel K ->
  (forall xs, length xs = (2 * width * length states)%nat -> length (K xs) = length (f0 :: fluxes)) ->
  (1 <= chunk)%nat -> (forall n, (n <= chunk)%nat -> length (stale n) = (chunk - n)%nat) ->
  flux_data_ok m (pdv_box f0) (f0 :: fluxes) states dir width ->
  exists N m', forall fuel, (N < fuel)%nat -> exists m'',
    ComputeNumericFluxes_simd fuel chunk kernel stale rank m (f0 :: fluxes) states dir width = Finished m'' /\
    ComputeNumericFluxes_seq K m (f0 :: fluxes) states dir width = Finished m' /\ forall a, m'' a = m' a.
Proof. exact flux_simd_pointwise. Qed.
Print Assumptions C18_numeric_fluxes.

Example C18_example :
  strided_view 3 ux_state /\ strided_view 3 ux_flux /\ update_shape 2 ux_state /\
  (forall n, (n <= 8)%nat -> length (ux_stale 8 n) = (8 - n)%nat) /\
  update_data_ok ux_memory ux_state ux_state ux_flux 0 /\
  strided_view 1 un_states /\ strided_view 1 un_fluxes /\ flux_shape 1 un_fluxes /\
  lanewise 8 2 1 un_kernel un_K /\ flux_data_ok ux_memory (pdv_box un_fluxes) [un_fluxes] [un_states] 0 1.
Proof.
  split; [exists [3; 2; 1], [1; 3; 6]; repeat split|]. split; [exists [4; 2; 1], [1; 4; 8]; repeat split|].
  split.
  { split; [right; left; reflexivity|]. split; [|split; [cbn; lia|intros _; cbn; lia]].
    intros [|[|r]] Hr; [cbn; lia|cbn; lia|lia]. }
  split; [intros n Hn; apply repeat_length|]. split; [exact ux_ok|].
  split; [exists [4], [1]; repeat split|]. split; [exists [3], [1]; repeat split|].
  split.
  { split; [left; reflexivity|]. split; [|intros; discriminate]. intros [|r] Hr; [cbn; lia|lia]. }
  split; [apply un_lanewise|exact un_ok].
Qed.

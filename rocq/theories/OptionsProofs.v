(** Proofs for C159. *)
From Coq Require Import String Ascii List ZArith Bool Arith Lia.
From Verif Require Import OptionsModel OptionsSpec.
Import ListNotations.
Local Open Scope Z_scope.

Lemma find_in {obj} (m : list (string * obj)) name v : unique_names m -> gives m name v -> find (fun e => String.eqb (fst e) name) m = Some (name, v).
Proof.
  induction m as [|[k x] m IH]; intros U H; [destruct H|]. cbn [find fst]. unfold unique_names in *. cbn [map fst] in U. inversion U as [|? ? U1 U2]; subst.
  destruct H as [[= -> ->]|H]; [now rewrite String.eqb_refl|]. destruct (String.eqb_spec k name) as [-> |N]; [exfalso; apply U1; now apply (in_map fst) in H|]. now apply IH.
Qed.
Lemma find_out {obj} (m : list (string * obj)) name : silent m name -> find (fun e => String.eqb (fst e) name) m = None.
Proof.
  intros H. destruct (find _ m) as [[k x]|] eqn:E; [|reflexivity]. exfalso. apply find_some in E. destruct E as [I E]. cbn in E. apply String.eqb_eq in E. subst k. now apply (H x).
Qed.
Lemma emplace_new {obj} (m : list (string * obj)) k v : ~ In k (map fst m) -> emplace m k v = m ++ [(k, v)].
Proof.
  intros N. unfold emplace. destruct (existsb (fun e => String.eqb (fst e) k) m) eqn:E; [|reflexivity]. exfalso. apply existsb_exists in E. destruct E as ([k' x] & I & K). cbn in K. apply String.eqb_eq in K. subst k'. apply N. now apply (in_map fst) in I.
Qed.
Lemma filter_fold {obj} (keep : string -> bool) (d : list (string * obj)) : forall m, NoDup (map fst (m ++ d)) ->
  fold_left (fun m kv => if keep (fst kv) then emplace m (fst kv) (snd kv) else m) d m = m ++ filter (fun kv => keep (fst kv)) d.
Proof.
  induction d as [|[k v] d IH]; intros m U; cbn [fold_left filter fst snd]; [now rewrite app_nil_r|].
  rewrite map_app in U. cbn [map fst] in U. assert (N : ~ In k (map fst m)). { apply NoDup_remove_2 in U. intros I. apply U. apply in_or_app. now left. }
  destruct (keep k).
  - rewrite emplace_new by exact N. rewrite IH; [now rewrite <- app_assoc|]. rewrite <- app_assoc. cbn [app]. rewrite map_app. exact U.
  - apply IH. rewrite map_app. now apply NoDup_remove_1 in U.
Qed.
Lemma ToMap_id {obj} (d : list (string * obj)) : unique_names d -> ToMap d = d.
Proof.
  intros U. unfold ToMap. pose proof (filter_fold (fun _ => true) d [] U) as F. cbn [app] in F. etransitivity; [exact F|]. clear. induction d as [|x d IH]; [reflexivity|]. cbn. now rewrite IH.
Qed.
Lemma Parse_filter {obj} (d : list (string * obj)) : unique_names d -> ParseGlobals d = filter (fun kv => negb (String.eqb (substring 0 2 (fst kv)) "__")) d.
Proof. intros U. exact (filter_fold (fun k => negb (String.eqb (substring 0 2 k) "__")) d [] U). Qed.
Lemma sub_prefix name : String.eqb (substring 0 2 name) "__" = prefix "__" name.
Proof.
  destruct name as [|a [|b name]]; [reflexivity| |].
  { cbn [substring prefix String.eqb]. destruct (Ascii.ascii_dec "_"%char a); destruct (Ascii.eqb a "_"%char); reflexivity. }
  cbn [substring]. replace (substring 0 0 name) with EmptyString by (destruct name; reflexivity). cbn [prefix String.eqb].
  destruct (Ascii.ascii_dec "_"%char a) as [<- |N]; [|now rewrite (proj2 (Ascii.eqb_neq a "_"%char) (not_eq_sym N))].
  rewrite Ascii.eqb_refl. destruct (Ascii.ascii_dec "_"%char b) as [<- |N]; [rewrite Ascii.eqb_refl; destruct name; reflexivity|now rewrite (proj2 (Ascii.eqb_neq b "_"%char) (not_eq_sym N))].
Qed.
Lemma filter_unique {obj} f (d : list (string * obj)) : unique_names d -> unique_names (filter f d).
Proof.
  unfold unique_names. induction d as [|x d IH]; intros U; [constructor|]. cbn in U. inversion U as [|? ? U1 U2]; subst. cbn [filter]. destruct (f x); [|now apply IH].
  cbn. constructor; [|now apply IH]. intros I. apply U1. apply in_map_iff in I. destruct I as (y & E & I). apply filter_In in I. rewrite <- E. now apply in_map.
Qed.

Lemma run_more : forall n k ps, (forall p, In p ps -> waits p = false) -> ps <> [] -> run (n + k) ps = ps.
Proof. intros n k ps H N. destruct (n + k)%nat as [|m]; [reflexivity|]. cbn [run]. destruct ps as [|p ps]; [congruence|]. cbn [forallb]. now rewrite (H p (or_introl eq_refl)). Qed.
Lemma run_stuck ps : forallb waits ps = false -> forall n, run n ps = ps.
Proof. intros H [|n]; cbn [run]; [reflexivity|now rewrite H]. Qed.
Lemma to_int_small n : 0 <= n < 2 ^ 31 -> to_int n = n.
Proof. intros H. unfold to_int. rewrite Z.mod_small by lia. lia. Qed.

(** n+1 vectors of dimension n are linearly dependent. *)
From Coq Require Import Reals Lra List Lia Arith.
Import ListNotations.
Open Scope R_scope.

Fixpoint lcomb (cs : list R) (vs : list (nat -> R)) (i : nat) : R :=
  match cs, vs with
  | c :: cs, v :: vs => c * v i + lcomb cs vs i
  | _, _ => 0
  end.

Definition dep (n : nat) (vs : list (nat -> R)) : Prop :=
  exists cs, length cs = length vs /\ (exists c, In c cs /\ c <> 0) /\
    forall i, (i < n)%nat -> lcomb cs vs i = 0.

Lemma lcomb_app c1 c2 v1 v2 i : length c1 = length v1 ->
  lcomb (c1 ++ c2) (v1 ++ v2) i = lcomb c1 v1 i + lcomb c2 v2 i.
Proof.
  revert v1; induction c1; intros [|v v1]; simpl; intros; try discriminate; [lra|].
  rewrite IHc1 by lia. lra.
Qed.

Lemma lcomb_sub cs vs (v : nat -> R) (f : (nat -> R) -> R) i : length cs = length vs ->
  lcomb cs (map (fun w i => w i - f w * v i) vs) i
  = lcomb cs vs i - fold_right Rplus 0 (map (fun cw => fst cw * f (snd cw)) (combine cs vs)) * v i.
Proof.
  revert vs; induction cs; intros [|w vs]; simpl; intros; try discriminate; [lra|].
  rewrite IHcs by lia. lra.
Qed.

Lemma all_or_one (vs : list (nat -> R)) n :
  (forall v, In v vs -> v n = 0) \/ exists v1 v v2, vs = v1 ++ v :: v2 /\ v n <> 0.
Proof.
  induction vs as [|v vs IH]; [left; simpl; tauto|].
  destruct (Req_dec (v n) 0) as [E|E].
  - destruct IH as [H|(v1 & w & v2 & -> & H)].
    + left. intros w [<-|Hw]; auto.
    + right. exists (v :: v1), w, v2. auto.
  - right. exists [], v, vs. auto.
Qed.

Lemma lcomb_zero_at cs vs i : (forall v, In v vs -> v i = 0) -> lcomb cs vs i = 0.
Proof.
  revert vs; induction cs; intros [|v vs]; simpl; intros H; auto.
  rewrite (H v), IHcs; auto. lra.
Qed.

Lemma split_len {A} (cs : list A) n m : length cs = (n + m)%nat ->
  exists c1 c2, cs = c1 ++ c2 /\ length c1 = n /\ length c2 = m.
Proof.
  intros H. exists (firstn n cs), (skipn n cs). rewrite firstn_skipn, firstn_length, skipn_length.
  repeat split; lia.
Qed.

Theorem too_many_dep : forall n vs, length vs = S n -> dep n vs.
Proof.
  induction n as [|n IH]; intros vs L.
  { exists (map (fun _ => 1) vs). split; [apply map_length|]. split; [|intros; lia].
    destruct vs; [discriminate|]. exists 1. split; [now left|lra]. }
  destruct (all_or_one vs n) as [H|(v1 & v & v2 & -> & H)].
  - destruct vs as [|v vs]; [discriminate|]. simpl in L. destruct (IH vs) as (cs & Lc & (c & Hc & Nc) & Z); [lia|].
    exists (0 :: cs). split; [simpl; lia|]. split; [exists c; split; [now right|exact Nc]|].
    intros i Hi. simpl. destruct (Nat.eq_dec i n) as [->|].
    + rewrite lcomb_zero_at; [lra|]. intros w Hw. apply H. now right.
    + rewrite Z by lia. lra.
  - set (f := fun w : nat -> R => w n / v n).
    destruct (IH (map (fun w i => w i - f w * v i) (v1 ++ v2))) as (cs & Lc & (c & Hc & Nc) & Z).
    { rewrite map_length. rewrite app_length in *. simpl in L. lia. }
    rewrite map_length in Lc. pose proof Lc as Lc0. rewrite app_length in Lc.
    destruct (split_len cs (length v1) (length v2) Lc) as (c1 & c2 & -> & L1 & L2).
    set (s := fold_right Rplus 0 (map (fun cw => fst cw * f (snd cw)) (combine (c1 ++ c2) (v1 ++ v2)))).
    exists (c1 ++ - s :: c2). split; [rewrite !app_length; simpl; lia|]. split.
    { exists c. split; [|exact Nc]. rewrite in_app_iff in *. simpl. tauto. }
    assert (E : forall i, lcomb (c1 ++ - s :: c2) (v1 ++ v :: v2) i
              = lcomb (c1 ++ c2) (map (fun w i => w i - f w * v i) (v1 ++ v2)) i).
    { intros i. rewrite lcomb_sub by exact Lc0. fold s. rewrite !lcomb_app by exact L1. simpl. lra. }
    intros i Hi. rewrite E. destruct (Nat.eq_dec i n) as [->|]; [|apply Z; lia].
    apply lcomb_zero_at. intros w Hw. apply in_map_iff in Hw. destruct Hw as (w' & <- & _).
    unfold f. field. exact H.
Qed.

(** * Exec: rewriting lemmas for running the storage monad (proof side). *)
From Verif Require Import Base.

Section exec.
  Context {S A B : Type}.
  Implicit Types (s : S).
  Lemma bind_read (f : S -> A) (k : A -> M S B) s : mbindM (mread f) k s = k (f s) s.
  Proof. reflexivity. Qed.
  Lemma bind_ret (a : A) (k : A -> M S B) s : mbindM (mret a) k s = k a s.
  Proof. reflexivity. Qed.
  Lemma bind_lift_ok (a : A) (k : A -> M S B) s : mbindM (mlift (Ok a)) k s = k a s.
  Proof. reflexivity. Qed.
  Lemma bind_lift (r : res A) a (k : A -> M S B) s : r = Ok a -> mbindM (mlift r) k s = k a s.
  Proof. intros ->. reflexivity. Qed.
  Lemma bind_readr (f : S -> res A) a (k : A -> M S B) s : f s = Ok a -> mbindM (mreadr f) k s = k a s.
  Proof. intros H. unfold mbindM, mreadr. rewrite H. reflexivity. Qed.
  Lemma bind_mod (f : S -> S) (k : unit -> M S B) s : mbindM (mmod f) k s = k tt (f s).
  Proof. reflexivity. Qed.
  Lemma bind_ensure b e (k : unit -> M S B) s : b = true -> mbindM (mensure b e) k s = k tt s.
  Proof. intros ->. reflexivity. Qed.
  Lemma bind_ok (m : M S A) s s' a (k : A -> M S B) : m s = (s', Ok a) -> mbindM m k s = k a s'.
  Proof. intros H. unfold mbindM. rewrite H. reflexivity. Qed.
  Lemma bind_err (m : M S A) s s' e (k : A -> M S B) : m s = (s', Err e) -> mbindM m k s = (s', Err e).
  Proof. intros H. unfold mbindM. rewrite H. reflexivity. Qed.
  Lemma bind_assoc {C} (m : M S A) (k : A -> M S B) (k' : B -> M S C) s :
    mbindM (mbindM m k) k' s = mbindM m (fun a => mbindM (k a) k') s.
  Proof. unfold mbindM. destruct (m s) as [s' []]; reflexivity. Qed.

  (** Inversion: a successful bind. *)
  Lemma bind_inv (m : M S A) (k : A -> M S B) s s' b :
    mbindM m k s = (s', Ok b) -> exists a s1, m s = (s1, Ok a) /\ k a s1 = (s', Ok b).
  Proof.
    unfold mbindM. destruct (m s) as [s1 [a|e| |]]; intros H; try discriminate. eauto.
  Qed.
End exec.

Lemma rbind_inv {A B} (m : res A) (k : A -> res B) b :
  rbind m k = Ok b -> exists a, m = Ok a /\ k a = Ok b.
Proof. destruct m; cbn; intros H; try discriminate. eauto. Qed.
Lemma mlift_inv {S A} (r : res A) (s s' : S) a : mlift r s = (s', Ok a) -> s' = s /\ r = Ok a.
Proof. unfold mlift. intros [=]; auto. Qed.
Lemma mensure_inv {S} b e (s s' : S) u : mensure b e s = (s', Ok u) -> s' = s /\ b = true.
Proof. unfold mensure, mlift, rensure. destruct b; intros [=]; auto. Qed.
Lemma rensure_inv b e u : rensure b e = Ok u -> b = true.
Proof. unfold rensure. destruct b; [auto|discriminate]. Qed.
Lemma mreadr_inv {S A} (f : S -> res A) (s s' : S) a : mreadr f s = (s', Ok a) -> s' = s /\ f s = Ok a.
Proof. unfold mreadr. intros [=]; auto. Qed.
Lemma mread_inv {S A} (f : S -> A) (s s' : S) a : mread f s = (s', Ok a) -> s' = s /\ f s = a.
Proof. unfold mread. intros [=]; auto. Qed.
Lemma mret_inv {S A} (x : A) (s s' : S) a : mret x s = (s', Ok a) -> s' = s /\ a = x.
Proof. unfold mret. intros [=]; auto. Qed.
Lemma mmod_inv {S} (f : S -> S) (s s' : S) u : mmod f s = (s', Ok u) -> s' = f s.
Proof. unfold mmod. intros [=]; auto. Qed.
Lemma ok_or_inv {A} (o : option A) e a : ok_or o e = Ok a -> o = Some a.
Proof. destruct o; cbn; congruence. Qed.

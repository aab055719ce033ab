(** Equations of the coroutine monad (World.v). *)
From Verif Require Import Py World.

Lemma bind_get {A B} (f : world -> A) (k : A -> M B) w : mbind (mget f) k w = k (f w) w.
Proof. unfold mbind, mget. destruct (k (f w) w) as [[t w'] o]. reflexivity. Qed.
Lemma bind_ret {A B} (a : A) (k : A -> M B) w : mbind (mret a) k w = k a w.
Proof. unfold mbind, mret. destruct (k a w) as [[t w'] o]. reflexivity. Qed.
Lemma bind_put {B} (f : world -> world) (k : unit -> M B) w : mbind (mput f) k w = k tt (f w).
Proof. unfold mbind, mput. destruct (k tt (f w)) as [[t w'] o]. reflexivity. Qed.
Lemma bind_raise {A B} e (k : A -> M B) w : mbind (mraise e) k w = ([], w, Exc e).
Proof. reflexivity. Qed.
Lemma bind_stuck {A B} y (k : A -> M B) w : mbind (mstuck y) k w = ([], w, Stuck y).
Proof. reflexivity. Qed.
Lemma bind_emit {B} e (k : unit -> M B) w :
  mbind (memit e) k w = let '(t, w', o) := k tt w in (e :: t, w', o).
Proof. unfold mbind, memit. destruct (k tt w) as [[t w'] o]. reflexivity. Qed.
Lemma bind_val {A B} (m : M A) (k : A -> M B) w t w1 a : m w = (t, w1, Val a) ->
  mbind m k w = let '(t2, w2, o) := k a w1 in (t ++ t2, w2, o).
Proof. intros H. unfold mbind. rewrite H. reflexivity. Qed.
Lemma bind_exc {A B} (m : M A) (k : A -> M B) w t w1 e : m w = (t, w1, Exc e) ->
  mbind m k w = (t, w1, Exc e).
Proof. intros H. unfold mbind. rewrite H. reflexivity. Qed.
Lemma bind_stk {A B} (m : M A) (k : A -> M B) w t w1 y : m w = (t, w1, Stuck y) ->
  mbind m k w = (t, w1, Stuck y).
Proof. intros H. unfold mbind. rewrite H. reflexivity. Qed.

Lemma bind_inv {A B} (m : M A) (k : A -> M B) w t w' o : mbind m k w = (t, w', o) ->
  (exists t1 w1 a t2, m w = (t1, w1, Val a) /\ k a w1 = (t2, w', o) /\ t = t1 ++ t2) \/
  (exists e, m w = (t, w', Exc e) /\ o = Exc e) \/
  (exists y, m w = (t, w', Stuck y) /\ o = Stuck y).
Proof.
  unfold mbind. destruct (m w) as [[t1 w1] [a|e|y]]; intros H.
  - left. destruct (k a w1) as [[t2 w2] o2] eqn:K. injection H as <- <- <-. exists t1, w1, a, t2. auto.
  - right; left. injection H as <- <- <-. eauto.
  - right; right. injection H as <- <- <-. eauto.
Qed.

Lemma bind_assoc {A B C} (m : M A) (f : A -> M B) (g : B -> M C) w :
  mbind (mbind m f) g w = mbind m (fun a => mbind (f a) g) w.
Proof.
  unfold mbind. destruct (m w) as [[t1 w1] [a|e|y]]; auto.
  destruct (f a w1) as [[t2 w2] [b|e|y]]; auto.
  destruct (g b w2) as [[t3 w3] o]. rewrite app_assoc. reflexivity.
Qed.

(** * atan2 gives the polar angle *)
From Coq Require Import ZArith Reals Lra.
From Verif Require Import RArith.
Local Open Scope R_scope.

Lemma atan_polar q : sqrt (1 + q * q) * cos (atan q) = 1 /\ sqrt (1 + q * q) * sin (atan q) = q.
Proof.
  assert (0 <= q * q) by apply Rle_0_sqr. assert (P : 0 < sqrt (1 + q * q)) by (apply sqrt_lt_R0; lra).
  rewrite cos_atan, sin_atan. unfold Rsqr. split; field; lra.
Qed.

Lemma Ratan2_polar y x : x = sqrt (x * x + y * y) * cos (Ratan2 y x) /\ y = sqrt (x * x + y * y) * sin (Ratan2 y x).
Proof.
  unfold Ratan2. destruct (Rlt_dec 0 x) as [P|P].
  - assert (E : sqrt (x * x + y * y) = x * sqrt (1 + y / x * (y / x))).
    { rewrite <- (sqrt_square x) at 3 by lra. rewrite <- sqrt_mult_alt by (apply Rle_0_sqr). f_equal. field. lra. }
    destruct (atan_polar (y / x)) as [A B]. rewrite E. rewrite !Rmult_assoc, A, B. split; field; lra.
  - destruct (Rlt_dec x 0) as [N|N].
    + assert (E : sqrt (x * x + y * y) = - x * sqrt (1 + y / x * (y / x))).
      { rewrite <- (sqrt_square (- x)) by lra. rewrite <- sqrt_mult_alt by (apply Rle_0_sqr). f_equal. field. lra. }
      destruct (atan_polar (y / x)) as [A B]. rewrite E.
      assert (C : cos (if Rle_dec 0 y then atan (y / x) + PI else atan (y / x) - PI) = - cos (atan (y / x)) /\
                  sin (if Rle_dec 0 y then atan (y / x) + PI else atan (y / x) - PI) = - sin (atan (y / x))).
      { destruct (Rle_dec 0 y); [rewrite cos_plus, sin_plus|rewrite cos_minus, sin_minus]; rewrite cos_PI, sin_PI; split; ring. }
      destruct C as [-> ->].
      replace (- x * sqrt (1 + y / x * (y / x)) * - cos (atan (y / x))) with (x * (sqrt (1 + y / x * (y / x)) * cos (atan (y / x)))) by ring.
      replace (- x * sqrt (1 + y / x * (y / x)) * - sin (atan (y / x))) with (x * (sqrt (1 + y / x * (y / x)) * sin (atan (y / x)))) by ring.
      rewrite A, B. split; field; lra.
    + assert (x = 0) by lra. subst x. rewrite Rmult_0_l, Rplus_0_l.
      destruct (Rlt_dec 0 y) as [Y|Y].
      * rewrite sqrt_square, cos_PI2, sin_PI2 by lra. lra.
      * destruct (Rlt_dec y 0) as [Y'|Y'].
        -- replace (y * y) with (- y * - y) by ring. rewrite sqrt_square by lra. rewrite cos_neg, sin_neg, cos_PI2, sin_PI2. lra.
        -- assert (y = 0) by lra. subst y. rewrite Rmult_0_l, sqrt_0. lra.
Qed.

(** * L_Prime2: the order of the base point of secp256r1 is prime *)
From Coq Require Import ZArith Znumtheory Lia List.
From Verif Require Import M_ECCurve L_Fermat L_Prime.
Import ListNotations.
Open Scope Z_scope.

(** the order of G in the standard (FIPS 186-4, P-256); it does not occur in /repo *)
Definition n256r1 : Z := 0xFFFFFFFF00000000FFFFFFFFFFFFFFFFBCE6FAADA7179E84F3B9CAC2FC632551.
Lemma pr_155317 : prime 155317. Proof. apply trial_prime; [lia|vm_compute; reflexivity]. Qed.
Lemma pr_191039911 : prime 191039911.
Proof.
  apply (cert_prime _ 2 [155317]).
  - cbn. repeat constructor; cbn; intuition discriminate.
  - repeat apply Forall_cons; try apply Forall_nil; [exact pr_155317].
  - vm_compute; reflexivity.
Qed.
Lemma pr_3023 : prime 3023. Proof. apply trial_prime; [lia|vm_compute; reflexivity]. Qed.
Lemma pr_208150935158385979 : prime 208150935158385979.
Proof.
  apply (cert_prime _ 2 [191039911; 3023]).
  - cbn. repeat constructor; cbn; intuition discriminate.
  - repeat apply Forall_cons; try apply Forall_nil; [exact pr_191039911|exact pr_3023].
  - vm_compute; reflexivity.
Qed.
Lemma pr_2624747550333869278416773953 : prime 2624747550333869278416773953.
Proof.
  apply (cert_prime _ 2 [208150935158385979]).
  - cbn. repeat constructor; cbn; intuition discriminate.
  - repeat apply Forall_cons; try apply Forall_nil; [exact pr_208150935158385979].
  - vm_compute; reflexivity.
Qed.
Lemma pr_104471 : prime 104471. Proof. apply trial_prime; [lia|vm_compute; reflexivity]. Qed.
Lemma pr_3969899 : prime 3969899.
Proof.
  apply (cert_prime _ 2 [104471]).
  - cbn. repeat constructor; cbn; intuition discriminate.
  - repeat apply Forall_cons; try apply Forall_nil; [exact pr_104471].
  - vm_compute; reflexivity.
Qed.
Lemma pr_1002328039319 : prime 1002328039319.
Proof.
  apply (cert_prime _ 2 [3969899]).
  - cbn. repeat constructor; cbn; intuition discriminate.
  - repeat apply Forall_cons; try apply Forall_nil; [exact pr_3969899].
  - vm_compute; reflexivity.
Qed.
Lemma prime_n256r1 : prime n256r1.
Proof.
  apply (cert_prime _ 2 [2624747550333869278416773953; 1002328039319]).
  - cbn. repeat constructor; cbn; intuition discriminate.
  - repeat apply Forall_cons; try apply Forall_nil; [exact pr_2624747550333869278416773953|exact pr_1002328039319].
  - vm_compute; reflexivity.
Qed.

(** * AsymSpec: what a valid RSA or DSA key pair is, independently of the code. *)
From Coq Require Import ZArith Znumtheory.
Local Open Scope Z_scope.

(** An RSA key pair of [size] bits: n = p q for distinct odd primes, exponents inverse to each
    other modulo p-1 and q-1, and u the inverse of p modulo q. *)
Record rsa_pair (size n e d p q u : Z) : Prop := {
  rsa_p_prime : prime p;  rsa_q_prime : prime q;  rsa_p_odd : 2 < p;  rsa_q_odd : 2 < q;
  rsa_p_neq_q : p <> q;
  rsa_n : n = p * q;
  rsa_bits : 2 ^ (size - 1) <= n < 2 ^ size;
  rsa_size : 0 < size;
  rsa_e : 0 < e;  rsa_d : 0 < d;
  rsa_ed_p : (e * d) mod (p - 1) = 1;
  rsa_ed_q : (e * d) mod (q - 1) = 1;
  rsa_u : 0 <= u /\ (u * p) mod q = 1 }.

(** A DSA group and key pair: q divides p-1, g has order q modulo p, y = g^x. *)
Record dsa_group (p q g : Z) : Prop := {
  dsa_p_prime : prime p;  dsa_q_prime : prime q;
  dsa_g : 1 < g < p;
  dsa_order : (g ^ q) mod p = 1 }.
Record dsa_pair (p q g y x : Z) : Prop := {
  dsa_grp : dsa_group p q g;
  dsa_x : 0 < x < q;
  dsa_y : y = (g ^ x) mod p }.

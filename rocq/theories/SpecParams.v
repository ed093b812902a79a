(* The numbers that the library is built with, as they stand in the code, and the facts about them that are taken for granted. *)
From Verif Require Import Base Crypto.
From Coq Require Import ZArith Znumtheory.
Local Open Scope Z_scope.

(* src/crypto.rs:31-48 `dh::MODULUS` *)
Definition modulus_1536 : N := 0xffffffffffffffffc90fdaa22168c234c4c6628b80dc1cd129024e088a67cc74020bbea63b139b22514a08798e3404ddef9519b3cd3a431b302b0a6df25f14374fe1356d6d51c245e485b576625e7ec6f44c42e9a637ed6b0bff5cb6f406b7edee386bfb5a899fa5ae9f24117c4b1fe649286651ece45b3dc2007cb8a163bf0598da48361c55d39a69163fa8fd24cf5f83655d23dca3ad961c62f356208552bb9ed529077096966d670c354e4abc9804f1746c08ca237327ffffffffffffffff%N.
(* src/crypto.rs:1806-1838 `dh3072::P` *)
Definition modulus_3072 : N := 0xffffffffffffffffc90fdaa22168c234c4c6628b80dc1cd129024e088a67cc74020bbea63b139b22514a08798e3404ddef9519b3cd3a431b302b0a6df25f14374fe1356d6d51c245e485b576625e7ec6f44c42e9a637ed6b0bff5cb6f406b7edee386bfb5a899fa5ae9f24117c4b1fe649286651ece45b3dc2007cb8a163bf0598da48361c55d39a69163fa8fd24cf5f83655d23dca3ad961c62f356208552bb9ed529077096966d670c354e4abc9804f1746c08ca18217c32905e462e36ce3be39e772c180e86039b2783a2ec07a28fb5c55df06f4c52c9de2bcbf6955817183995497cea956ae515d2261898fa051015728e5a8aaac42dad33170d04507a33a85521abdf1cba64ecfb850458dbef0a8aea71575d060c7db3970f85a6e1e4c7abf5ae8cdb0933d71e8c94e04a25619dcee3d2261ad2ee6bf12ffa06d98a0864d87602733ec86a64521f2b18177b200cbbe117577a615d6c770988c0bad946e208e24fa074e5ab3143db5bfce0fd108e4b82d120a93ad2caffffffffffffffff%N.
(* src/crypto.rs:1848-1880 `dh3072::Q` *)
Definition order_3072 : N := 0x7fffffffffffffffe487ed5110b4611a62633145c06e0e68948127044533e63a0105df531d89cd9128a5043cc71a026ef7ca8cd9e69d218d98158536f92f8a1ba7f09ab6b6a8e122f242dabb312f3f637a262174d31bf6b585ffae5b7a035bf6f71c35fdad44cfd2d74f9208be258ff324943328f6722d9ee1003e5c50b1df82cc6d241b0e2ae9cd348b1fd47e9267afc1b2ae91ee51d6cb0e3179ab1042a95dcf6a9483b84b4b36b3861aa7255e4c0278ba3604650c10be19482f23171b671df1cf3b960c074301cd93c1d17603d147dae2aef837a62964ef15e5fb4aac0b8c1ccaa4be754ab5728ae9130c4c7d02880ab9472d45556216d6998b8682283d19d42a90d5ef8e5d32767dc2822c6df785457538abae83063ed9cb87c2d370f263d5fad7466d8499eb8f464a702512b0cee771e9130d697735f897fd036cc504326c3b01399f643532290f958c0bbd90065df08babbd30aeb63b84c4605d6ca371047127d03a72d598a1edadfe707e884725c16890549d69657fffffffffffffff%N.
(* src/crypto.rs:1196-1198 `ed448::P` *)
Definition ed448_p : Z := 726838724295606890549323807888004534353641360687318060281490199180612328166730772686396383698676545930088884461843637361053498018365439.
(* src/crypto.rs:1201-1203 `ed448::Q` *)
Definition ed448_q : Z := 181709681073901722637330951972001133588410340171829515070372549795146003961539585716195755291692375963310293709091662304773755859649779.
(* src/crypto.rs:1182-1187 `ed448::G` *)
Definition ed448_g : point := mkPoint
  224580040295924300187604334099896036246789641632564134246125461686950415467406032909029192869357953282578032075146446173674602635247710
  298819210078481492676017930443930673437544040154080242095928241372331506189835876003536878655418784733982303233503462500531545062832660.

(* C uses these numbers; src/crypto.rs:28 and 1841 for the generators, 1206 for d.  Its hash functions, ciphers and signatures may be any. *)
Definition built_in (C : Crypto) : Prop :=
  c_dh_p C = modulus_1536 /\ c_dh_g C = 2%N /\
  c_dh3_p C = modulus_3072 /\ c_dh3_q C = order_3072 /\ c_dh3_g C = 2%N /\
  c_ed_p C = ed448_p /\ c_ed_q C = ed448_q /\ c_ed_d C = -39081 /\ c_ed_g C = ed448_g.

(* Primality of the numbers, and the order of the base point, which are too expensive to check here. *)
Definition primes : Prop :=
  prime (Z.of_N modulus_1536) /\ prime (Z.of_N ((modulus_1536 - 1) / 2)) /\ prime ed448_p /\ prime ed448_q.
Definition base_order (C : Crypto) : Prop := pt_mul C ed448_g ed448_q = pt_id.

(** Private-key files (RFC 5208, RFC 5915).  Nothing here models code. *)
From Verif Require Export SpecEcdsa EcdsaKey.
Local Open Scope N_scope.

(** The object identifier of the curve P-256. *)
Definition oid_p256 : str := map ascii_of_N [42; 134; 72; 206; 61; 3; 1; 7].
(** ECPrivateKey: version 1, the private key, optionally the curve and the public key. *)
Definition ec_private_key (private : str) (public : option str) (s : str) : Prop :=
  exists version key params rest,
    tagged 2 [byte 1] version /\ tagged 4 private key
    /\ (params = [] \/ exists id, tagged 6 oid_p256 id /\ tagged 160 id params)
    /\ match public with
       | Some pk => exists bits, tagged 3 (byte 0 :: pk) bits /\ tagged 161 bits rest
       | None => rest = []
       end
    /\ tagged 48 (version ++ key ++ params ++ rest) s.
(** PrivateKeyInfo with a P-256 key: version 0, algorithm and curve, ECPrivateKey, optionally attributes. *)
Definition ec_pkcs8 (private : str) (public : option str) (s : str) : Prop :=
  exists version ec curve_id algorithm inner key attributes,
    tagged 2 [byte 0] version /\ tagged 6 oid_ec ec /\ tagged 6 oid_p256 curve_id /\ tagged 48 (ec ++ curve_id) algorithm
    /\ ec_private_key private public inner /\ tagged 4 inner key
    /\ (attributes = [] \/ exists a, tagged 160 a attributes)
    /\ tagged 48 (version ++ algorithm ++ key ++ attributes) s.
(** The public key of a private one: 32 bytes with a number of the curve, and the bytes of its multiple of the generator. *)
Definition ec_pair (c : curve) (private public : str) : Prop :=
  List.length private = 32%nat /\ (0 < Z.of_N (big_endian private) < cv_n c)%Z
  /\ exists Q, multiple c (Some (cv_gx c, cv_gy c)) (N.to_nat (big_endian private)) Q /\ public_point c public Q.
(** The limit of the reader: 65535 bytes in the file (65539 with tag and length). *)
Definition short_file (s : str) : Prop := N.of_nat (List.length s) < 65540.

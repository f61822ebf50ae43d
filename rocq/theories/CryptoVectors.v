(** The test vectors of /repo/kerberos_crypto, evaluated on the model with the
    primitives of Prims.v.  Each [Check] makes the build fail if the two sides
    differ; nothing is added to the environment.  These are tests of the model,
    not proofs. *)
From Coq Require Import String.
From Verif Require Import Base Utf8 Hex Mappers Crypto Prims.
#[local] Unset Implicit Arguments.
Set Printing Depth 3.
Definition same (a : res unit bytes) (b : bytes) : bool := match a with Ok x => bytes_eqb x b | _ => false end.

(** ciphers/rc4.rs:99-245 *)
Check (eq_refl true <: same (@generate_key_from_string_and_encrypt std_prims unit Rc4Cipher (str "admin") [] 1
  (hex "5a676559305a49654164567572544b396273356b6247") (hex "3132333435363738")) (hex "9dc24787cb4fea5967ac2b7f2e39b62aea6ffef208cf5d6ef42bb9294a6cc2eaa4f90bc9145a188c85ed0bfa0f00") = true).
Check (eq_refl true <: same (@generate_key_from_string_and_encrypt std_prims unit Rc4Cipher (str "test") [] 2
  (hex "444c5a4c5330354761634c4e39546f7a4247") (hex "3132333435363738")) (hex "2977a81c996c0e74b1960c77f8fd5971e3a5fa2dc0d9e0ca0b076cb8579512405b8731aaf251869edbbc") = true).
Check (eq_refl true <: same (@generate_key_from_string_and_encrypt std_prims unit Rc4Cipher (str "1337") [] 3
  (hex "4c4859623142776a53507954596e5a43784f656e63") (hex "3132333435363738")) (hex "eeac19f0e03dd41e84aaa8339790d439a6699691dbf69ea75781d8092251546158fceea893d3b86ec75af6f0db") = true).
Check (eq_refl true <: same (@generate_key_from_string_and_encrypt std_prims unit Rc4Cipher (str "") [] 4
  (hex "6d5577474f49615969793152446675") (hex "3132333435363738")) (hex "23b693903f073930cc9862f80fec5e3850cf2a301c1f076e9845652cbfe729132fb6659bf28911") = true).
Check (eq_refl true <: same (@generate_key_from_string_and_encrypt std_prims unit Rc4Cipher (str "12345678") [] 5
  (hex "745734416836737a6f79393268687059") (hex "3132333435363738")) (hex "a6119feae18c18bb120f86fd6c6956cb513db0809982056a586b66e9debee9b5bc5372dfa39dea8d") = true).
Check (eq_refl true <: same (@generate_key_from_string_and_encrypt std_prims unit Rc4Cipher (str "123456789") [] 6
  (hex "695a7a79727674447236776f7849684173484b59534263466b6e59784153") (hex "3132333435363738")) (hex "4fe35f4325e811dedc473ec8ba6880fa338ce154c14ded331443a5fc0940aa436e5943b4330f1945d3fe24a4044bc279b93339e79c14") = true).
(** ciphers/aes.rs:105-133, 383-402: one vector per key size *)
Check (eq_refl true <: same (@generate_key_from_string_and_encrypt std_prims unit (AesCipher Aes256) (str "admin") (str "admin1234") 1
  (hex "336168777a74394d473957564575425643356a306f69367349") (repeat 0%N 16)) (hex "29737f3db6bcdfe9990fb2136d3efe6f2100e6c4ac75824299d8d3702f5a2e31c7a336747dfd734a1ea0165ebb27c0d7ce9b5aec7a") = true).
Check (eq_refl true <: same (@generate_key_from_string_and_encrypt std_prims unit (AesCipher Aes128) (str "admin") (str "admin1234") 1
  (hex "6c38387053786b4d7978776867") (repeat 0%N 16)) (hex "ded4d3bfd788a4b5ec6b0d9c8f2400ea044794a5ea27ecd03f8cf42b58008ccd27f4277819a26b27d9") = true).
(** cryptography/nfold_dk.rs:118-202 *)
Check (eq_refl true <: same (@n_fold unit (str "012345") 8) (hex "be072631276b1955") = true).
Check (eq_refl true <: same (@n_fold unit (str "password") 7) (hex "78a07b6caf85fa") = true).
Check (eq_refl true <: same (@n_fold unit (str "Rough Consensus, and Running Code") 8) (hex "bb6ed30870b7f0e0") = true).
Check (eq_refl true <: same (@n_fold unit (str "password") 21) (hex "59e4a8ca7c0385c3c37b3f6d2000247cb6e6bd5b3e") = true).
Check (eq_refl true <: same (@n_fold unit (str "MASSACHVSETTS INSTITVTE OF TECHNOLOGY") 24) (hex "db3b0d8f0b061e603282b308a50841229ad798fab9540c1b") = true).
Check (eq_refl true <: same (@n_fold unit (str "Q") 21) (hex "518a54a215a8452a518a54a215a8452a518a54a215") = true).
Check (eq_refl true <: same (@n_fold unit (str "ba") 21) (hex "fb25d531ae8974499f52fd92ea9857c4ba24cf297e") = true).
Check (eq_refl true <: same (@n_fold unit (str "kerberos") 8) (hex "6b65726265726f73") = true).
Check (eq_refl true <: same (@n_fold unit (str "kerberos") 16) (hex "6b65726265726f737b9b5b2b93132b93") = true).
Check (eq_refl true <: same (@n_fold unit (str "kerberos") 21) (hex "8372c236344e5f1550cd0747e15d62ca7a5a3bcea4") = true).
Check (eq_refl true <: same (@n_fold unit (str "kerberos") 32) (hex "6b65726265726f737b9b5b2b93132b935c9bdcdad95c9899c4cae4dee6d6cae4") = true).
(** algorithms/rc4_hmac_md5/key.rs:25-69 *)
Check (eq_refl true <: bytes_eqb (rc4_generate_key_from_string std_prims (str "admin")) (hex "209c6174da490caeb422f3fa5a7ae634") = true).
Check (eq_refl true <: bytes_eqb (rc4_generate_key_from_string std_prims (str "test")) (hex "0cb6948805f797bf2a82807973b89537") = true).
Check (eq_refl true <: bytes_eqb (rc4_generate_key_from_string std_prims (str "1337")) (hex "2fd6bde7db0681887498914cb2d201ef") = true).
Check (eq_refl true <: bytes_eqb (rc4_generate_key_from_string std_prims (str "")) (hex "31d6cfe0d16ae931b73c59d7e0c089c0") = true).
Check (eq_refl true <: bytes_eqb (rc4_generate_key_from_string std_prims (str "12345678")) (hex "259745cb123a52aa2e693aaacca2db52") = true).
Check (eq_refl true <: bytes_eqb (rc4_generate_key_from_string std_prims (str "123456789")) (hex "c22b315c040ae6e0efee3518d830362b") = true).
(** cryptography/hmac.rs:26- *)
Check (eq_refl true <: bytes_eqb (hmac_md5 (hex "61646d696e") (hex "")) (hex "2dc09b8b35af9c036fc3f29cdbc05fbb") = true).
Check (eq_refl true <: bytes_eqb (hmac_md5 (hex "61646d696e") (hex "61626364")) (hex "9a0698f1b48bc64c95cff74bf4691639") = true).
Check (eq_refl true <: bytes_eqb (hmac_md5 (hex "61646d696e") (hex "71776572747975696f70")) (hex "5951a7a911b89bfb361843bba98ffe54") = true).
Check (eq_refl true <: bytes_eqb (hmac_md5 (hex "61646d696e") (hex "6173646667686a6b")) (hex "aa21a8a423d660a658d61a86c8a94eeb") = true).
Check (eq_refl true <: bytes_eqb (hmac_md5 (hex "61646d696e") (hex "7a786376626e6d2c2e")) (hex "224dcb991b06355b82778d7418add0cf") = true).
Check (eq_refl true <: bytes_eqb (hmac_md5 (hex "74657374") (hex "")) (hex "6aebb41d4366c2794687e1d9e7aee307") = true).
Check (eq_refl true <: bytes_eqb (hmac_md5 (hex "74657374") (hex "61626364")) (hex "8033461ab91df161b4066271d02d3f82") = true).
Check (eq_refl true <: bytes_eqb (hmac_md5 (hex "74657374") (hex "71776572747975696f70")) (hex "4525bd9dcc2aaab486604c4652f86ec3") = true).
Check (eq_refl true <: bytes_eqb (hmac_md5 (hex "74657374") (hex "6173646667686a6b")) (hex "b4d59fcd1ef1f12a1ac5a4112d5e1ec1") = true).
Check (eq_refl true <: bytes_eqb (hmac_md5 (hex "74657374") (hex "7a786376626e6d2c2e")) (hex "af95cb8ef6070d12039c68e2beb5e2f2") = true).
Check (eq_refl true <: bytes_eqb (hmac_md5 (hex "31333337") (hex "")) (hex "16a9722d9b348efe744623bd971c3589") = true).
Check (eq_refl true <: bytes_eqb (hmac_md5 (hex "31333337") (hex "61626364")) (hex "798aac10f4c3918647ea9236738bf325") = true).
Check (eq_refl true <: bytes_eqb (hmac_md5 (hex "31333337") (hex "71776572747975696f70")) (hex "bbd09d84eb12cc2e4aa010ea16a8c8a9") = true).
Check (eq_refl true <: bytes_eqb (hmac_md5 (hex "31333337") (hex "6173646667686a6b")) (hex "4a60818f1a8efa3a15bb6c28f5755943") = true).
Check (eq_refl true <: bytes_eqb (hmac_md5 (hex "31333337") (hex "7a786376626e6d2c2e")) (hex "87a8597a750bc87f5873aad64a3ca08f") = true).
Check (eq_refl true <: bytes_eqb (hmac_md5 (hex "") (hex "")) (hex "74e6f7298a9c2d168935f58c001bad88") = true).
Check (eq_refl true <: bytes_eqb (hmac_md5 (hex "") (hex "61626364")) (hex "ea1c526c3d895eeb8498298b13f10896") = true).
Check (eq_refl true <: bytes_eqb (hmac_md5 (hex "") (hex "71776572747975696f70")) (hex "6cb930b9669a832f2ace4aeb03bafc42") = true).
Check (eq_refl true <: bytes_eqb (hmac_md5 (hex "") (hex "6173646667686a6b")) (hex "cd2e36dc8add03c697e9318d109fb09b") = true).
Check (eq_refl true <: bytes_eqb (hmac_md5 (hex "") (hex "7a786376626e6d2c2e")) (hex "a96579477e2f693fa43d1bc5a0593262") = true).
Check (eq_refl true <: bytes_eqb (hmac_md5 (hex "3132333435363738") (hex "")) (hex "0660be5cdac08e3ff3d49449cef9abd0") = true).
Check (eq_refl true <: bytes_eqb (hmac_md5 (hex "3132333435363738") (hex "61626364")) (hex "626a3815b095a68bf57d5439f60c276c") = true).
Check (eq_refl true <: bytes_eqb (hmac_md5 (hex "3132333435363738") (hex "71776572747975696f70")) (hex "7e54a2513d39b49bfdc2e86721e34648") = true).
Check (eq_refl true <: bytes_eqb (hmac_md5 (hex "3132333435363738") (hex "6173646667686a6b")) (hex "63b87ea32a07f84566cadfcb6da0339a") = true).
Check (eq_refl true <: bytes_eqb (hmac_md5 (hex "3132333435363738") (hex "7a786376626e6d2c2e")) (hex "05350c93e5c3dc7fa5de585468a9a350") = true).
Check (eq_refl true <: bytes_eqb (hmac_md5 (hex "313233343536373839") (hex "")) (hex "4c94728a3646dd3468934ed1ccf662ca") = true).
Check (eq_refl true <: bytes_eqb (hmac_md5 (hex "313233343536373839") (hex "61626364")) (hex "a2756b80aa4e84f0cee02ef592ba8727") = true).
Check (eq_refl true <: bytes_eqb (hmac_md5 (hex "313233343536373839") (hex "71776572747975696f70")) (hex "f99cd933f75ed57d0cec031d2a18d7bc") = true).
Check (eq_refl true <: bytes_eqb (hmac_md5 (hex "313233343536373839") (hex "6173646667686a6b")) (hex "5bd2ae8fee7cf9ce22589c3fabc184cf") = true).
Check (eq_refl true <: bytes_eqb (hmac_md5 (hex "313233343536373839") (hex "7a786376626e6d2c2e")) (hex "ef6a67fca3ca205f3c30fc1a045ae54b") = true).
(** cryptography/rc4.rs:22- *)
Check (eq_refl true <: same (@rc4_encrypt std_prims unit (hex "2dc09b8b35af9c036fc3f29cdbc05fbb") (hex "")) (hex "") = true).
Check (eq_refl true <: same (@rc4_encrypt std_prims unit (hex "9a0698f1b48bc64c95cff74bf4691639") (hex "61626364")) (hex "c254b74f") = true).
Check (eq_refl true <: same (@rc4_encrypt std_prims unit (hex "5951a7a911b89bfb361843bba98ffe54") (hex "71776572747975696f70")) (hex "f9a2788274206f813105") = true).
Check (eq_refl true <: same (@rc4_encrypt std_prims unit (hex "aa21a8a423d660a658d61a86c8a94eeb") (hex "6173646667686a6b")) (hex "38e2f506e198e817") = true).
Check (eq_refl true <: same (@rc4_encrypt std_prims unit (hex "224dcb991b06355b82778d7418add0cf") (hex "7a786376626e6d2c2e")) (hex "2d623b287409fecc6c") = true).
Check (eq_refl true <: same (@rc4_encrypt std_prims unit (hex "8033461ab91df161b4066271d02d3f82") (hex "61626364")) (hex "20be0798") = true).
Check (eq_refl true <: same (@rc4_encrypt std_prims unit (hex "4525bd9dcc2aaab486604c4652f86ec3") (hex "71776572747975696f70")) (hex "1aedad97c5d23a10deee") = true).
Check (eq_refl true <: same (@rc4_encrypt std_prims unit (hex "b4d59fcd1ef1f12a1ac5a4112d5e1ec1") (hex "6173646667686a6b")) (hex "ef5f86c6094c0d05") = true).
Check (eq_refl true <: same (@rc4_encrypt std_prims unit (hex "af95cb8ef6070d12039c68e2beb5e2f2") (hex "7a786376626e6d2c2e")) (hex "9b0b32453014691705") = true).
Check (eq_refl true <: same (@rc4_encrypt std_prims unit (hex "798aac10f4c3918647ea9236738bf325") (hex "61626364")) (hex "95b343d1") = true).
Check (eq_refl true <: same (@rc4_encrypt std_prims unit (hex "bbd09d84eb12cc2e4aa010ea16a8c8a9") (hex "71776572747975696f70")) (hex "60a26e7be48fd3ba9afd") = true).
Check (eq_refl true <: same (@rc4_encrypt std_prims unit (hex "4a60818f1a8efa3a15bb6c28f5755943") (hex "6173646667686a6b")) (hex "623e6facf6ab5655") = true).
Check (eq_refl true <: same (@rc4_encrypt std_prims unit (hex "87a8597a750bc87f5873aad64a3ca08f") (hex "7a786376626e6d2c2e")) (hex "a497fabe6795917d0a") = true).
Check (eq_refl true <: same (@rc4_encrypt std_prims unit (hex "ea1c526c3d895eeb8498298b13f10896") (hex "61626364")) (hex "f43b2039") = true).
Check (eq_refl true <: same (@rc4_encrypt std_prims unit (hex "6cb930b9669a832f2ace4aeb03bafc42") (hex "71776572747975696f70")) (hex "3514a2c25f89da66a561") = true).
Check (eq_refl true <: same (@rc4_encrypt std_prims unit (hex "cd2e36dc8add03c697e9318d109fb09b") (hex "6173646667686a6b")) (hex "a2262ab1bbcdac74") = true).
Check (eq_refl true <: same (@rc4_encrypt std_prims unit (hex "a96579477e2f693fa43d1bc5a0593262") (hex "7a786376626e6d2c2e")) (hex "7f140295b8529da0d6") = true).
Check (eq_refl true <: same (@rc4_encrypt std_prims unit (hex "626a3815b095a68bf57d5439f60c276c") (hex "61626364")) (hex "865e662f") = true).
Check (eq_refl true <: same (@rc4_encrypt std_prims unit (hex "7e54a2513d39b49bfdc2e86721e34648") (hex "71776572747975696f70")) (hex "f50e7fddb9ab4370ec58") = true).
Check (eq_refl true <: same (@rc4_encrypt std_prims unit (hex "63b87ea32a07f84566cadfcb6da0339a") (hex "6173646667686a6b")) (hex "52bc090b608ef38d") = true).
Check (eq_refl true <: same (@rc4_encrypt std_prims unit (hex "05350c93e5c3dc7fa5de585468a9a350") (hex "7a786376626e6d2c2e")) (hex "5590edc383f588f6ea") = true).
Check (eq_refl true <: same (@rc4_encrypt std_prims unit (hex "a2756b80aa4e84f0cee02ef592ba8727") (hex "61626364")) (hex "02fba185") = true).
Check (eq_refl true <: same (@rc4_encrypt std_prims unit (hex "f99cd933f75ed57d0cec031d2a18d7bc") (hex "71776572747975696f70")) (hex "958699c495977f32c34b") = true).
Check (eq_refl true <: same (@rc4_encrypt std_prims unit (hex "5bd2ae8fee7cf9ce22589c3fabc184cf") (hex "6173646667686a6b")) (hex "b44ebe5387c061a3") = true).
Check (eq_refl true <: same (@rc4_encrypt std_prims unit (hex "ef6a67fca3ca205f3c30fc1a045ae54b") (hex "7a786376626e6d2c2e")) (hex "bcfbcd79dcea73b33d") = true).
(** checksum.rs:39-105 *)
Check (eq_refl true <: bytes_eqb (checksum_hmac_md5 std_prims (hex "72c390c65d7189ab9a39c3fbfcba41b85a5f726ed64c0c8a5cab5beb648cb874") 17 (hex "0100000061646d696e6973747261646f726b696e67646f6d2e6865617274734b65726265726f73")) (hex "85bfbd75ee4a87929c28bc0724952f8d") = true).
Check (eq_refl true <: same (@checksum_sha_aes std_prims unit (hex "25b2076cda3bfd6209161a6c78a69c1c25b2076cda3bfd6209161a6c78a69c1c") 17 (hex "ffffff7f8023b8a31031d6010000000045") Aes256) (hex "a84d321d2324ffa06244b787") = true).
Check (eq_refl true <: same (@checksum_sha_aes std_prims unit (hex "25b2076cda3bfd6209161a6c78a69c1c") 17 (hex "ffffff7f8023b8a31031d6010000000045") Aes128) (hex "f05fef821ecd6d62ad3a3894") = true).
(** algorithms/aes_hmac_sha1/salt.rs:24-38 *)
Check (eq_refl true <: bytes_eqb (aes_generate_salt ascii_casing (str "KINGdom.HEARTS") (str "MicKey")) (str "KINGDOM.HEARTSmickey") = true).
Check (eq_refl true <: bytes_eqb (aes_generate_salt ascii_casing (str "kingdom.Hearts") (str "PC$")) (str "KINGDOM.HEARTShostpc.kingdom.hearts") = true).

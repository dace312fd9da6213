(** * Bytes of files in /repo/tests/test_data

    Each number in hexadecimal holds up to 64 bytes: a leading 1, then the bytes in
    reverse order. *)
From Coq Require Import ZArith List.
Import ListNotations.
Open Scope Z_scope.

(** The bytes, least significant first, below the leading 1: [k] bits of weight [2^k]
    have been added to [acc]. *)
Fixpoint bytes_of (p : positive) (k : nat) (acc w : Z) : list Z :=
  match p with
  | xH => []
  | xO q => match k with 7%nat => acc :: bytes_of q 0 0 1 | _ => bytes_of q (S k) acc (2 * w) end
  | xI q => match k with 7%nat => (acc + w) :: bytes_of q 0 0 1 | _ => bytes_of q (S k) (acc + w) (2 * w) end
  end.
Definition file (l : list positive) : list Z := flat_map (fun p => bytes_of p 0 0 1) l.

(** shock-f-ser-p1.gkyl, 2157 bytes. *)
Definition shock_f_ser : list Z := file [
  0x10000000000000000000008000000000000000800000000000000020000000000000002000000000000000000000000000000010000000000000001306c796b67;
  0x10000000000000000000000000000000000000000000000000000400000000000000020401921fb54442d18401000000000000000000000000000003ff0000000;
  0x100000000000000000000000000000000000000000000000000000000000000000000000000000000000000000000000000000000000000000000000000000000;
  0x100000000000000000000000000000000000000000000000000000000000000000000000000000000000000000000000000000000000000000000000000000000;
  0x100000000000000000000000000000000000000000000000000000000000000000000000000000000000000000000000000000000000000000000000000000000;
  0x100000000000000000000000000000000000000000000000000000000000000000000000000000000000000000000000000000000000000000000000000000000;
  0x100000000000000000000000000000000000000000000000000000000000000000000000000000000000000000000000000000000000000000000000000000000;
  0x100000000000000000000000000000000000000000000000000000000000000000000000000000000000000000000000000000000000000000000000000000000;
  0x100000000000000000000000000000000000000000000000000000000000000000000000000000000000000000000000000000000000000000000000000000000;
  0x100000000000000000000000000000000000000000000000000000000000000000000000000000000000000000000000000000000000000000000000000000000;
  0x100000000000000000000000000000000000000000000000000000000000000000000000000000000000000000000000000000000000000000000000000000000;
  0x100000000000000000000000000000000000000000000000000000000000000000000000000000000000000000000000000000000000000000000000000000000;
  0x100000000000000000000000000000000000000000000000000000000000000000000000000000000000000000000000000000000000000000000000000000000;
  0x100000000000000000000000000000000000000000000000000000000000000000000000000000000000000000000000000000000000000000000000000000000;
  0x100000000000000000000000000000000000000000000000000000000000000000000000000000000000000000000000000000000000000000000000000000000;
  0x100000000000000000000000000000000000000000000000000000000000000000000000000000000000000000000000000000000000000000000000000000000;
  0x100000000000000000000000000000000000000000000000000000000000000000000000000000000000000000000000000000000000000000000000000000000;
  0x100000000000000000000004000000000000000000000000000000000000000000000000000000000000000000000000000000000000000000000000000000000;
  0x100000000000000000000004000000000000000000000000000000000000000000000000000000000000000400000000000000000000000000000000000000000;
  0x100000000000000000000004000000000000000000000000000000000000000000000000000000000000000400000000000000000000000000000000000000000;
  0x100000000000000000000004000000000000000000000000000000000000000000000000000000000000000400000000000000000000000000000000000000000;
  0x100000000000000000000004000000000000000000000000000000000000000000000000000000000000000400000000000000000000000000000000000000000;
  0x100000000000000000000004000000000000000000000000000000000000000000000000000000000000000400000000000000000000000000000000000000000;
  0x100000000000000000000004000000000000000000000000000000000000000000000000000000000000000400000000000000000000000000000000000000000;
  0x100000000000000000000004000000000000000000000000000000000000000000000000000000000000000400000000000000000000000000000000000000000;
  0x100000000000000000000004000000000000000000000000000000000000000000000000000000000000000400000000000000000000000000000000000000000;
  0x100000000000000000000004000000000000000000000000000000000000000000000000000000000000000400000000000000000000000000000000000000000;
  0x100000000000000000000004000000000000000000000000000000000000000000000000000000000000000400000000000000000000000000000000000000000;
  0x100000000000000000000004000000000000000000000000000000000000000000000000000000000000000400000000000000000000000000000000000000000;
  0x100000000000000000000004000000000000000000000000000000000000000000000000000000000000000400000000000000000000000000000000000000000;
  0x100000000000000000000004000000000000000000000000000000000000000000000000000000000000000400000000000000000000000000000000000000000;
  0x100000000000000000000004000000000000000000000000000000000000000000000000000000000000000400000000000000000000000000000000000000000;
  0x100000000000000000000004000000000000000000000000000000000000000000000000000000000000000400000000000000000000000000000000000000000;
  0x1000000000000000000000000000000000000000000000000400000000000000000000000000000000000000000]%positive.

(** shock-f-ten-p1.gkyl, 2157 bytes. *)
Definition shock_f_ten : list Z := file [
  0x10000000000000000000008000000000000000800000000000000020000000000000002000000000000000000000000000000010000000000000001306c796b67;
  0x10000000000000000000000000000000000000000000000000000400000000000000020401921fb54442d18401000000000000000000000000000003ff0000000;
  0x100000000000000000000000000000000000000000000000000000000000000000000000000000000000000000000000000000000000000000000000000000000;
  0x100000000000000000000000000000000000000000000000000000000000000000000000000000000000000000000000000000000000000000000000000000000;
  0x100000000000000000000000000000000000000000000000000000000000000000000000000000000000000000000000000000000000000000000000000000000;
  0x100000000000000000000000000000000000000000000000000000000000000000000000000000000000000000000000000000000000000000000000000000000;
  0x100000000000000000000000000000000000000000000000000000000000000000000000000000000000000000000000000000000000000000000000000000000;
  0x100000000000000000000000000000000000000000000000000000000000000000000000000000000000000000000000000000000000000000000000000000000;
  0x100000000000000000000000000000000000000000000000000000000000000000000000000000000000000000000000000000000000000000000000000000000;
  0x100000000000000000000000000000000000000000000000000000000000000000000000000000000000000000000000000000000000000000000000000000000;
  0x100000000000000000000000000000000000000000000000000000000000000000000000000000000000000000000000000000000000000000000000000000000;
  0x100000000000000000000000000000000000000000000000000000000000000000000000000000000000000000000000000000000000000000000000000000000;
  0x100000000000000000000000000000000000000000000000000000000000000000000000000000000000000000000000000000000000000000000000000000000;
  0x100000000000000000000000000000000000000000000000000000000000000000000000000000000000000000000000000000000000000000000000000000000;
  0x100000000000000000000000000000000000000000000000000000000000000000000000000000000000000000000000000000000000000000000000000000000;
  0x100000000000000000000000000000000000000000000000000000000000000000000000000000000000000000000000000000000000000000000000000000000;
  0x100000000000000000000000000000000000000000000000000000000000000000000000000000000000000000000000000000000000000000000000000000000;
  0x100000000000000000000004000000000000000000000000000000000000000000000000000000000000000000000000000000000000000000000000000000000;
  0x100000000000000000000004000000000000000000000000000000000000000000000000000000000000000400000000000000000000000000000000000000000;
  0x100000000000000000000004000000000000000000000000000000000000000000000000000000000000000400000000000000000000000000000000000000000;
  0x100000000000000000000004000000000000000000000000000000000000000000000000000000000000000400000000000000000000000000000000000000000;
  0x100000000000000000000004000000000000000000000000000000000000000000000000000000000000000400000000000000000000000000000000000000000;
  0x100000000000000000000004000000000000000000000000000000000000000000000000000000000000000400000000000000000000000000000000000000000;
  0x100000000000000000000004000000000000000000000000000000000000000000000000000000000000000400000000000000000000000000000000000000000;
  0x100000000000000000000004000000000000000000000000000000000000000000000000000000000000000400000000000000000000000000000000000000000;
  0x100000000000000000000004000000000000000000000000000000000000000000000000000000000000000400000000000000000000000000000000000000000;
  0x100000000000000000000004000000000000000000000000000000000000000000000000000000000000000400000000000000000000000000000000000000000;
  0x100000000000000000000004000000000000000000000000000000000000000000000000000000000000000400000000000000000000000000000000000000000;
  0x100000000000000000000004000000000000000000000000000000000000000000000000000000000000000400000000000000000000000000000000000000000;
  0x100000000000000000000004000000000000000000000000000000000000000000000000000000000000000400000000000000000000000000000000000000000;
  0x100000000000000000000004000000000000000000000000000000000000000000000000000000000000000400000000000000000000000000000000000000000;
  0x100000000000000000000004000000000000000000000000000000000000000000000000000000000000000400000000000000000000000000000000000000000;
  0x100000000000000000000004000000000000000000000000000000000000000000000000000000000000000400000000000000000000000000000000000000000;
  0x1000000000000000000000000000000000000000000000000400000000000000000000000000000000000000000]%positive.

(** shock-rtheta-ser.gkyl, 4205 bytes. *)
Definition shock_rtheta_ser : list Z := file [
  0x10000000000000000000008000000000000000800000000000000020000000000000002000000000000000000000000000000010000000000000001306c796b67;
  0x15009b23fc7a7847e30b6ed400037af066dc5c100000000000000400000000000000040401921fb54442d18401000000000000000000000000000003ff0000000;
  0x10e748b3fb3988e140921303feadebc19b717053fa6a09e667f3bcc3fdf06e0f50e748a3fb3988e1409212e3feadebc19b71702bf92bec333018861bfc9b418a0;
  0x10e748bbfb3988e1409212ebfeadebc19b717013f92bec33301886c3fc9b418a05009b63fc7a7847e30b6ed400037af066dc5c0bfa6a09e667f3bcfbfdf06e0f5;
  0x15009b6bfc7a7847e30b6edc00037af066dc5c0bf92bec333018861bfc9b418a05009b23fc7a7847e30b6ed400037af066dc5c1bfa6a09e667f3bccbfdf06e0f5;
  0x15009b2bfc7a7847e30b6efc00037af066dc5c1bfa6a09e667f3bccbfdf06e0f50e748b3fb3988e140921323feadebc19b71705bf92bec33301886cbfc9b418a0;
  0x10e748dbfb3988e14092132bfeadebc19b71709bfa6a09e667f3bcfbfdf06e0f50e748bbfb3988e1409212bbfeadebc19b717013f92bec33301886c3fc9b418a0;
  0x10e74933fb3988e140921323feadebc19b71706bf92bec33301886cbfc9b418a05009c0bfc7a7847e30b6edc00037af066dc5c03fa6a09e667f3bd23fdf06e0f5;
  0x15009c63fc7a7847e30b6ea400037af066dc5bf3f92bec33301886c3fc9b418a05009c0bfc7a7847e30b6edc00037af066dc5c03fa6a09e667f3bd23fdf06e0f5;
  0x14f9a983fc7a7847e30b6f1400556bde009b35c3fa6a09e667f3bd43fdf06e0f50e7492bfb3988e14092139bfeadebc19b7170f3f92bec3330188813fc9b418a0;
  0x18982913fb3988e1409212b3ff1ad7bc01366b83fa6a09e667f3bcc3fe46993ff8982903fb3988e1409212e3ff1ad7bc01366b7bf92bec333018857bfd0e902ba;
  0x1898290bfb3988e14092130bff1ad7bc01366b73f92bec33301886c3fd0e902ba4f9a9a3fc7a7847e30b6ed400556bde009b35cbfa6a09e667f3bcabfe46993ff;
  0x14f9a9abfc7a7847e30b6edc00556bde009b35cbf92bec333018857bfd0e902ba4f9a983fc7a7847e30b6f1400556bde009b35cbfa6a09e667f3bcfbfe46993ff;
  0x14f9a95bfc7a7847e30b6edc00556bde009b35cbfa6a09e667f3bccbfe46993ff8982903fb3988e1409212e3ff1ad7bc01366b9bf92bec33301886cbfd0e902ba;
  0x1898293bfb3988e14092132bff1ad7bc01366bbbfa6a09e667f3bccbfe46993ff898291bfb3988e1409212ebff1ad7bc01366b63f92bec33301886c3fd0e902ba;
  0x18982963fb3988e140921353ff1ad7bc01366babf92bec33301886cbfd0e902ba4f9a9fbfc7a7847e30b6edc00556bde009b35a3fa6a09e667f3bcf3fe46993ff;
  0x14f9aa63fc7a7847e30b6e8400556bde009b3593f92bec33301886c3fd0e902ba4f9aa1bfc7a7847e30b6edc00556bde009b35a3fa6a09e667f3bd73fe46993ff;
  0x17730573fc7a7847e30b6ed400a75ccb9a5a0f73fa6a09e667f3bd73fe46993ff898296bfb3988e14092139bff1ad7bc01366c03f92bec3330188813fd0e902ba;
  0x18bcadc3fb3988e140921373ff5eb99734b41ef3fa6a09e667f3bd23fe94fb7848bcadd3fb3988e140921323ff5eb99734b41eebf92bec33301886cbfd4f7f924;
  0x18bcadebfb3988e1409212ebff5eb99734b41ed3f92bec33301886c3fd4f7f9247730573fc7a7847e30b6ed400a75ccb9a5a0f7bfa6a09e667f3bccbfe94fb784;
  0x1773057bfc7a7847e30b6edc00a75ccb9a5a0f7bf92bec33301886cbfd4f7f9247730573fc7a7847e30b6ed400a75ccb9a5a0f7bfa6a09e667f3bd7bfe94fb784;
  0x1773052bfc7a7847e30b6f1c00a75ccb9a5a0f8bfa6a09e667f3bd2bfe94fb7848bcadc3fb3988e140921323ff5eb99734b41efbf92bec33301886cbfd4f7f924;
  0x18bcadfbfb3988e14092137bff5eb99734b41f4bfa6a09e667f3bd2bfe94fb7848bcadebfb3988e14092132bff5eb99734b41ed3f92bec3330188573fd4f7f924;
  0x18bcae43fb3988e1409212e3ff5eb99734b41f0bf92bec33301886cbfd4f7f92477305ebfc7a7847e30b6edc00a75ccb9a5a0f63fa6a09e667f3bcc3fe94fb784;
  0x17730653fc7a7847e30b6ed400a75ccb9a5a0f43f92bec3330188813fd4f7f924773060bfc7a7847e30b6e8c00a75ccb9a5a0f53fa6a09e667f3bd73fe94fb784;
  0x19ec6133fc7a7847e30b6ed400f94db93418e923fa6a09e667f3bd23fe94fb7848bcae4bfb3988e14092132bff5eb99734b41f83f92bec33301886c3fd4f7f924;
  0x18e13283fb3988e1409212e3ffa29b726831d263fa6a09e667f3bcc3fee35db098e13283fb3988e1409212e3ffa29b726831d24bf92bec333018857bfd906ef8e;
  0x18e1329bfb3988e1409212ebffa29b726831d233f92bec3330188573fd906ef8e9ec6163fc7a7847e30b6f1400f94db93418e92bfa6a09e667f3bccbfee35db09;
  0x19ec616bfc7a7847e30b6f1c00f94db93418e92bf92bec333018857bfd906ef8e9ec6133fc7a7847e30b6ed400f94db93418e92bfa6a09e667f3bccbfee35db09;
  0x19ec611bfc7a7847e30b6e8c00f94db93418e93bfa6a09e667f3bccbfee35db098e13283fb3988e1409212e3ffa29b726831d26bf92bec333018857bfd906ef8e;
  0x18e132bbfb3988e14092132bffa29b726831d2abfa6a09e667f3bccbfee35db098e1329bfb3988e1409212ebffa29b726831d233f92bec33301886c3fd906ef8e;
  0x18e13313fb3988e140921323ffa29b726831d28bf92bec333018881bfd906ef8e9ec61fbfc7a7847e30b6edc00f94db93418e903fa6a09e667f3bd23fee35db09;
  0x19ec6263fc7a7847e30b6ed400f94db93418e8e3f92bec33301886c3fd906ef8e9ec621bfc7a7847e30b6e8c00f94db93418e903fa6a09e667f3bd23fee35db09;
  0x1c65bd23fc7a7847e30b6f1401259f5366ebe173fa6a09e667f3bd23fee35db098e132fbfb3988e1409213bbffa29b726831d303f92bec3330188573fd906ef8e;
  0x1482dba3fb3988e140921293ffe67d4d9baf85c3fa6a09e667f3bd23ff18dff47482dba3fb3988e140921323ffe67d4d9baf85abf92bec333018857bfdd15e5f8;
  0x1482dbabfb3988e14092137bffe67d4d9baf8593f92bec3330188573fdd15e5f8c65bd53fc7a7847e30b6f1401259f5366ebe16bfa6a09e667f3bc7bff18dff47;
  0x1c65bd5bfc7a7847e30b6f1c01259f5366ebe16bf92bec333018857bfdd15e5f8c65bd23fc7a7847e30b6f1401259f5366ebe17bfa6a09e667f3bd7bff18dff47;
  0x1c65bcebfc7a7847e30b6f1c01259f5366ebe17bfa6a09e667f3bccbff18dff47482dba3fb3988e140921323ffe67d4d9baf85cbf92bec333018857bfdd15e5f8;
  0x1482dbcbfb3988e14092137bffe67d4d9baf862bfa6a09e667f3bd2bff18dff47482dbabfb3988e1409212ebffe67d4d9baf8593f92bec3330188573fdd15e5f8;
  0x1482dbe3fb3988e140921323ffe67d4d9baf85ebf92bec333018881bfdd15e5f8c65bdebfc7a7847e30b6e8c01259f5366ebe163fa6a09e667f3bd73ff18dff47;
  0x1c65be73fc7a7847e30b6e8401259f5366ebe143f92bec3330188573fdd15e5f8c65be0bfc7a7847e30b6f1c01259f5366ebe153fa6a09e667f3bd23ff18dff47;
  0x176f8c83fc7a7847e30b6f14014e97ca33cb4e43fa6a09e667f3bcc3ff18dff47482dbebfb3988e14092137bffe67d4d9baf8673f92bec3330188813fdd15e5f8;
  0x1c951e13fb3988e14092137400152f9467969c93fa6a09e667f3bcc3ff4011109c951df3fb3988e1409212e400152f9467969c8bf92bec333018857bfe0926e31;
  0x1c951dfbfb3988e1409212ec00152f9467969c83f92bec3330188813fe0926e3176f8ca3fc7a7847e30b6e84014e97ca33cb4e4bfa6a09e667f3bd7bff4011109;
  0x176f8cabfc7a7847e30b6e8c014e97ca33cb4e4bf92bec333018857bfe0926e3176f8c83fc7a7847e30b6f14014e97ca33cb4e4bfa6a09e667f3bccbff4011109;
  0x176f8c5bfc7a7847e30b6f1c014e97ca33cb4e5bfa6a09e667f3bd7bff4011109c951df3fb3988e14092137400152f9467969cabf92bec333018881bfe0926e31;
  0x1c951e3bfb3988e1409212ec00152f9467969cdbfa6a09e667f3bccbff4011109c951e1bfb3988e1409212ec00152f9467969c73f92bec3330188573fe0926e31;
  0x1c951e53fb3988e14092137400152f9467969cbbf92bec333018857bfe0926e3176f8cebfc7a7847e30b6f1c014e97ca33cb4e33fa6a09e667f3bcc3ff4011109;
  0x176f8d33fc7a7847e30b6e84014e97ca33cb4e23f92bec3330188813fe0926e3176f8d1bfc7a7847e30b6e8c014e97ca33cb4e23fa6a09e667f3bd73ff4011109;
  0x18ac3a73fc7a7847e30b6e840177904100aabb23fa6a09e667f3bd73ff4011109c951e4bfb3988e14092137c00152f9467969d03f92bec3330188813fe0926e31;
  0x14a76063fb3988e1409212e40037208201557643fa6a09e667f3bcc3ff67422cc4a76063fb3988e1409212e4003720820155764bf92bec333018881bfe299e966;
  0x14a7606bfb3988e1409212ec0037208201557643f92bec3330188813fe299e9668ac3a73fc7a7847e30b6e840177904100aabb2bfa6a09e667f3bccbff67422cc;
  0x18ac3a7bfc7a7847e30b6e8c0177904100aabb2bf92bec333018881bfe299e9668ac3a73fc7a7847e30b6e840177904100aabb2bfa6a09e667f3bccbff67422cc;
  0x18ac3a5bfc7a7847e30b6f1c0177904100aabb2bfa6a09e667f3bccbff67422cc4a76053fb3988e1409212e4003720820155765bf92bec333018881bfe299e966;
  0x14a7608bfb3988e1409212ec003720820155767bfa6a09e667f3bccbff67422cc4a7608bfb3988e1409212ec0037208201557633f92bec3330188573fe299e966;
  0x14a760c3fb3988e1409212e4003720820155767bf92bec333018881bfe299e9668ac3b0bfc7a7847e30b6e8c0177904100aabb03fa6a09e667f3bcc3ff67422cc;
  0x18ac3b53fc7a7847e30b6f140177904100aabaf3f92bec3330188813fe299e9668ac3b0bfc7a7847e30b6e8c0177904100aabb03fa6a09e667f3bcc3ff67422cc;
  0x19e8e843fc7a7847e30b6e8401a088b7cd8a2803fa6a09e667f3bd73ff67422cc4a760bbfb3988e14092137c00372082015576c3f92bec3330188573fe299e966;
  0x1cb9a2c3fb3988e1409213740059116f9b145013fa6a09e667f3bcc3ff8e7348ecb9a2b3fb3988e1409212e40059116f9b144febf92bec333018881bfe4a1649b;
  0x1cb9a2cbfb3988e14092124c0059116f9b144fd3f92bec3330188573fe4a1649b9e8e893fc7a7847e30b6f1401a088b7cd8a27fbfa6a09e667f3bc2bff8e7348e;
  0x19e8e89bfc7a7847e30b6f1c01a088b7cd8a27fbf92bec333018881bfe4a1649b9e8e843fc7a7847e30b6e8401a088b7cd8a280bfa6a09e667f3bd7bff8e7348e;
  0x19e8e84bfc7a7847e30b6e8c01a088b7cd8a280bfa6a09e667f3bccbff8e7348ecb9a2c3fb3988e1409212e40059116f9b14501bf92bec333018857bfe4a1649b;
  0x1cb9a2dbfb3988e14092140c0059116f9b14504bfa6a09e667f3bccbff8e7348ecb9a2cbfb3988e1409212ec0059116f9b144fd3f92bec3330188813fe4a1649b;
  0x1cb9a333fb3988e1409212e40059116f9b14501bf92bec333018881bfe4a1649b9e8e8dbfc7a7847e30b6e8c01a088b7cd8a27e3fa6a09e667f3bcc3ff8e7348e;
  0x19e8e973fc7a7847e30b6e8401a088b7cd8a27c3f92bec3330188573fe4a1649b9e8e92bfc7a7847e30b6f1c01a088b7cd8a27d3fa6a09e667f3be23ff8e7348e;
  0x13fa6a09e667f3bd73ff8e7348ecb9a32bfb3988e14092137c0059116f9b145083f92bec3330188813fe4a1649b]%positive.

(** shock-rtheta-ten.gkyl, 4205 bytes. *)
Definition shock_rtheta_ten : list Z := file [
  0x10000000000000000000008000000000000000800000000000000020000000000000002000000000000000000000000000000010000000000000001306c796b67;
  0x15009b23fc7a7847e30b6ed400037af066dc5c100000000000000400000000000000040401921fb54442d18401000000000000000000000000000003ff0000000;
  0x10e748b3fb3988e140921303feadebc19b717053fa6a09e667f3bcc3fdf06e0f50e748a3fb3988e1409212e3feadebc19b71702bf92bec333018861bfc9b418a0;
  0x10e748bbfb3988e1409212ebfeadebc19b717013f92bec33301886c3fc9b418a05009b63fc7a7847e30b6ed400037af066dc5c0bfa6a09e667f3bcfbfdf06e0f5;
  0x15009b6bfc7a7847e30b6edc00037af066dc5c0bf92bec333018861bfc9b418a05009b23fc7a7847e30b6ed400037af066dc5c1bfa6a09e667f3bccbfdf06e0f5;
  0x15009b2bfc7a7847e30b6efc00037af066dc5c1bfa6a09e667f3bccbfdf06e0f50e748b3fb3988e140921323feadebc19b71705bf92bec33301886cbfc9b418a0;
  0x10e748dbfb3988e14092132bfeadebc19b71709bfa6a09e667f3bcfbfdf06e0f50e748bbfb3988e1409212bbfeadebc19b717013f92bec33301886c3fc9b418a0;
  0x10e74933fb3988e140921323feadebc19b71706bf92bec33301886cbfc9b418a05009c0bfc7a7847e30b6edc00037af066dc5c03fa6a09e667f3bd23fdf06e0f5;
  0x15009c63fc7a7847e30b6ea400037af066dc5bf3f92bec33301886c3fc9b418a05009c0bfc7a7847e30b6edc00037af066dc5c03fa6a09e667f3bd23fdf06e0f5;
  0x14f9a983fc7a7847e30b6f1400556bde009b35c3fa6a09e667f3bd43fdf06e0f50e7492bfb3988e14092139bfeadebc19b7170f3f92bec3330188813fc9b418a0;
  0x18982913fb3988e1409212b3ff1ad7bc01366b83fa6a09e667f3bcc3fe46993ff8982903fb3988e1409212e3ff1ad7bc01366b7bf92bec333018857bfd0e902ba;
  0x1898290bfb3988e14092130bff1ad7bc01366b73f92bec33301886c3fd0e902ba4f9a9a3fc7a7847e30b6ed400556bde009b35cbfa6a09e667f3bcabfe46993ff;
  0x14f9a9abfc7a7847e30b6edc00556bde009b35cbf92bec333018857bfd0e902ba4f9a983fc7a7847e30b6f1400556bde009b35cbfa6a09e667f3bcfbfe46993ff;
  0x14f9a95bfc7a7847e30b6edc00556bde009b35cbfa6a09e667f3bccbfe46993ff8982903fb3988e1409212e3ff1ad7bc01366b9bf92bec33301886cbfd0e902ba;
  0x1898293bfb3988e14092132bff1ad7bc01366bbbfa6a09e667f3bccbfe46993ff898291bfb3988e1409212ebff1ad7bc01366b63f92bec33301886c3fd0e902ba;
  0x18982963fb3988e140921353ff1ad7bc01366babf92bec33301886cbfd0e902ba4f9a9fbfc7a7847e30b6edc00556bde009b35a3fa6a09e667f3bcf3fe46993ff;
  0x14f9aa63fc7a7847e30b6e8400556bde009b3593f92bec33301886c3fd0e902ba4f9aa1bfc7a7847e30b6edc00556bde009b35a3fa6a09e667f3bd73fe46993ff;
  0x17730573fc7a7847e30b6ed400a75ccb9a5a0f73fa6a09e667f3bd73fe46993ff898296bfb3988e14092139bff1ad7bc01366c03f92bec3330188813fd0e902ba;
  0x18bcadc3fb3988e140921373ff5eb99734b41ef3fa6a09e667f3bd23fe94fb7848bcadd3fb3988e140921323ff5eb99734b41eebf92bec33301886cbfd4f7f924;
  0x18bcadebfb3988e1409212ebff5eb99734b41ed3f92bec33301886c3fd4f7f9247730573fc7a7847e30b6ed400a75ccb9a5a0f7bfa6a09e667f3bccbfe94fb784;
  0x1773057bfc7a7847e30b6edc00a75ccb9a5a0f7bf92bec33301886cbfd4f7f9247730573fc7a7847e30b6ed400a75ccb9a5a0f7bfa6a09e667f3bd7bfe94fb784;
  0x1773052bfc7a7847e30b6f1c00a75ccb9a5a0f8bfa6a09e667f3bd2bfe94fb7848bcadc3fb3988e140921323ff5eb99734b41efbf92bec33301886cbfd4f7f924;
  0x18bcadfbfb3988e14092137bff5eb99734b41f4bfa6a09e667f3bd2bfe94fb7848bcadebfb3988e14092132bff5eb99734b41ed3f92bec3330188573fd4f7f924;
  0x18bcae43fb3988e1409212e3ff5eb99734b41f0bf92bec33301886cbfd4f7f92477305ebfc7a7847e30b6edc00a75ccb9a5a0f63fa6a09e667f3bcc3fe94fb784;
  0x17730653fc7a7847e30b6ed400a75ccb9a5a0f43f92bec3330188813fd4f7f924773060bfc7a7847e30b6e8c00a75ccb9a5a0f53fa6a09e667f3bd73fe94fb784;
  0x19ec6133fc7a7847e30b6ed400f94db93418e923fa6a09e667f3bd23fe94fb7848bcae4bfb3988e14092132bff5eb99734b41f83f92bec33301886c3fd4f7f924;
  0x18e13283fb3988e1409212e3ffa29b726831d263fa6a09e667f3bcc3fee35db098e13283fb3988e1409212e3ffa29b726831d24bf92bec333018857bfd906ef8e;
  0x18e1329bfb3988e1409212ebffa29b726831d233f92bec3330188573fd906ef8e9ec6163fc7a7847e30b6f1400f94db93418e92bfa6a09e667f3bccbfee35db09;
  0x19ec616bfc7a7847e30b6f1c00f94db93418e92bf92bec333018857bfd906ef8e9ec6133fc7a7847e30b6ed400f94db93418e92bfa6a09e667f3bccbfee35db09;
  0x19ec611bfc7a7847e30b6e8c00f94db93418e93bfa6a09e667f3bccbfee35db098e13283fb3988e1409212e3ffa29b726831d26bf92bec333018857bfd906ef8e;
  0x18e132bbfb3988e14092132bffa29b726831d2abfa6a09e667f3bccbfee35db098e1329bfb3988e1409212ebffa29b726831d233f92bec33301886c3fd906ef8e;
  0x18e13313fb3988e140921323ffa29b726831d28bf92bec333018881bfd906ef8e9ec61fbfc7a7847e30b6edc00f94db93418e903fa6a09e667f3bd23fee35db09;
  0x19ec6263fc7a7847e30b6ed400f94db93418e8e3f92bec33301886c3fd906ef8e9ec621bfc7a7847e30b6e8c00f94db93418e903fa6a09e667f3bd23fee35db09;
  0x1c65bd23fc7a7847e30b6f1401259f5366ebe173fa6a09e667f3bd23fee35db098e132fbfb3988e1409213bbffa29b726831d303f92bec3330188573fd906ef8e;
  0x1482dba3fb3988e140921293ffe67d4d9baf85c3fa6a09e667f3bd23ff18dff47482dba3fb3988e140921323ffe67d4d9baf85abf92bec333018857bfdd15e5f8;
  0x1482dbabfb3988e14092137bffe67d4d9baf8593f92bec3330188573fdd15e5f8c65bd53fc7a7847e30b6f1401259f5366ebe16bfa6a09e667f3bc7bff18dff47;
  0x1c65bd5bfc7a7847e30b6f1c01259f5366ebe16bf92bec333018857bfdd15e5f8c65bd23fc7a7847e30b6f1401259f5366ebe17bfa6a09e667f3bd7bff18dff47;
  0x1c65bcebfc7a7847e30b6f1c01259f5366ebe17bfa6a09e667f3bccbff18dff47482dba3fb3988e140921323ffe67d4d9baf85cbf92bec333018857bfdd15e5f8;
  0x1482dbcbfb3988e14092137bffe67d4d9baf862bfa6a09e667f3bd2bff18dff47482dbabfb3988e1409212ebffe67d4d9baf8593f92bec3330188573fdd15e5f8;
  0x1482dbe3fb3988e140921323ffe67d4d9baf85ebf92bec333018881bfdd15e5f8c65bdebfc7a7847e30b6e8c01259f5366ebe163fa6a09e667f3bd73ff18dff47;
  0x1c65be73fc7a7847e30b6e8401259f5366ebe143f92bec3330188573fdd15e5f8c65be0bfc7a7847e30b6f1c01259f5366ebe153fa6a09e667f3bd23ff18dff47;
  0x176f8c83fc7a7847e30b6f14014e97ca33cb4e43fa6a09e667f3bcc3ff18dff47482dbebfb3988e14092137bffe67d4d9baf8673f92bec3330188813fdd15e5f8;
  0x1c951e13fb3988e14092137400152f9467969c93fa6a09e667f3bcc3ff4011109c951df3fb3988e1409212e400152f9467969c8bf92bec333018857bfe0926e31;
  0x1c951dfbfb3988e1409212ec00152f9467969c83f92bec3330188813fe0926e3176f8ca3fc7a7847e30b6e84014e97ca33cb4e4bfa6a09e667f3bd7bff4011109;
  0x176f8cabfc7a7847e30b6e8c014e97ca33cb4e4bf92bec333018857bfe0926e3176f8c83fc7a7847e30b6f14014e97ca33cb4e4bfa6a09e667f3bccbff4011109;
  0x176f8c5bfc7a7847e30b6f1c014e97ca33cb4e5bfa6a09e667f3bd7bff4011109c951df3fb3988e14092137400152f9467969cabf92bec333018881bfe0926e31;
  0x1c951e3bfb3988e1409212ec00152f9467969cdbfa6a09e667f3bccbff4011109c951e1bfb3988e1409212ec00152f9467969c73f92bec3330188573fe0926e31;
  0x1c951e53fb3988e14092137400152f9467969cbbf92bec333018857bfe0926e3176f8cebfc7a7847e30b6f1c014e97ca33cb4e33fa6a09e667f3bcc3ff4011109;
  0x176f8d33fc7a7847e30b6e84014e97ca33cb4e23f92bec3330188813fe0926e3176f8d1bfc7a7847e30b6e8c014e97ca33cb4e23fa6a09e667f3bd73ff4011109;
  0x18ac3a73fc7a7847e30b6e840177904100aabb23fa6a09e667f3bd73ff4011109c951e4bfb3988e14092137c00152f9467969d03f92bec3330188813fe0926e31;
  0x14a76063fb3988e1409212e40037208201557643fa6a09e667f3bcc3ff67422cc4a76063fb3988e1409212e4003720820155764bf92bec333018881bfe299e966;
  0x14a7606bfb3988e1409212ec0037208201557643f92bec3330188813fe299e9668ac3a73fc7a7847e30b6e840177904100aabb2bfa6a09e667f3bccbff67422cc;
  0x18ac3a7bfc7a7847e30b6e8c0177904100aabb2bf92bec333018881bfe299e9668ac3a73fc7a7847e30b6e840177904100aabb2bfa6a09e667f3bccbff67422cc;
  0x18ac3a5bfc7a7847e30b6f1c0177904100aabb2bfa6a09e667f3bccbff67422cc4a76053fb3988e1409212e4003720820155765bf92bec333018881bfe299e966;
  0x14a7608bfb3988e1409212ec003720820155767bfa6a09e667f3bccbff67422cc4a7608bfb3988e1409212ec0037208201557633f92bec3330188573fe299e966;
  0x14a760c3fb3988e1409212e4003720820155767bf92bec333018881bfe299e9668ac3b0bfc7a7847e30b6e8c0177904100aabb03fa6a09e667f3bcc3ff67422cc;
  0x18ac3b53fc7a7847e30b6f140177904100aabaf3f92bec3330188813fe299e9668ac3b0bfc7a7847e30b6e8c0177904100aabb03fa6a09e667f3bcc3ff67422cc;
  0x19e8e843fc7a7847e30b6e8401a088b7cd8a2803fa6a09e667f3bd73ff67422cc4a760bbfb3988e14092137c00372082015576c3f92bec3330188573fe299e966;
  0x1cb9a2c3fb3988e1409213740059116f9b145013fa6a09e667f3bcc3ff8e7348ecb9a2b3fb3988e1409212e40059116f9b144febf92bec333018881bfe4a1649b;
  0x1cb9a2cbfb3988e14092124c0059116f9b144fd3f92bec3330188573fe4a1649b9e8e893fc7a7847e30b6f1401a088b7cd8a27fbfa6a09e667f3bc2bff8e7348e;
  0x19e8e89bfc7a7847e30b6f1c01a088b7cd8a27fbf92bec333018881bfe4a1649b9e8e843fc7a7847e30b6e8401a088b7cd8a280bfa6a09e667f3bd7bff8e7348e;
  0x19e8e84bfc7a7847e30b6e8c01a088b7cd8a280bfa6a09e667f3bccbff8e7348ecb9a2c3fb3988e1409212e40059116f9b14501bf92bec333018857bfe4a1649b;
  0x1cb9a2dbfb3988e14092140c0059116f9b14504bfa6a09e667f3bccbff8e7348ecb9a2cbfb3988e1409212ec0059116f9b144fd3f92bec3330188813fe4a1649b;
  0x1cb9a333fb3988e1409212e40059116f9b14501bf92bec333018881bfe4a1649b9e8e8dbfc7a7847e30b6e8c01a088b7cd8a27e3fa6a09e667f3bcc3ff8e7348e;
  0x19e8e973fc7a7847e30b6e8401a088b7cd8a27c3f92bec3330188573fe4a1649b9e8e92bfc7a7847e30b6f1c01a088b7cd8a27d3fa6a09e667f3be23ff8e7348e;
  0x13fa6a09e667f3bd73ff8e7348ecb9a32bfb3988e14092137c0059116f9b145083f92bec3330188813fe4a1649b]%positive.

(** bimaxwellian-elc.gkyl, 24761 bytes. *)
Definition bimax_elc : list Z := file [
  0x162a901726564724f796c6f70a900656d617266a50000000000000000cb656d6974a484000000000000003400000000000000010000000000000001306c796b67;
  0x100000000000000000000000000000800000000000000100000000000000002000000000000000300000000000000026469726279686b67a86570795473697361;
  0x16ef94181698761000000000000010000000000000000603ff00000000000003ff000000000000040000000000000000000000000000000bff0000000000000c0;
  0x12e86262230251bba555fc0d7fc9ccfbd2343759acdf38eba6aa95f410528683a8c363071147f53bd37c52c98aa277c3d5919e9dea5d8803aa168837c5e9fd33d;
  0x1968c9a2d4d4dcabd5bcc936724b84d3d640c9d68ee651d3aabd1c4b9c63ea23d78bd63d80dd5fdba2b9e8da5b8b1b0bcf76cd65b5859de3a6136c2a401c9893d;
  0x16752f5a9915487ba4e5e955566e3a8bd1b65442e7553a83a6b589283c5ccad3d38617329f037e6ba794039e5da36afbd46875023663f4bba8f45c19ee62c953a;
  0x126fc47e0732982ba7304d2e6aa19fabd40e75f5fc16a42ba8765203f07a88f3a85261d93acb245bd54dbc2e23376cd3d52e6e6354c727e3a9a3be7dbfc6b053d;
  0x161b96985963435bd36f29a58f8f9a43d2fa9e5eea518453a75f70ae03416b53d438922ed2b4b75ba478545980115bfbd148e3ecf8cc4c73a59c93d1c6b5f2a3d;
  0x10f9e47feb1c320ba29ed1943c371cebcf69d52a69e4a463a35a100d8b8913f3d03408947a49ffdba54d5bb0ca96d90bd2298cfad743c06ba69b23e94d633f83a;
  0x1cf28c7577d6c5dba241423f94b943bbcf1eb7c6fcb43a0ba38bf2c65b90a9c3a2cbcc2ad2985b0bd061cba74b6e9513cf99fa6a98acfb33a41bdd1250244d73d;
  0x1e7307906ae619bbcc3fbdcfcb517d13cb4a0e56f1d65bb39fc9290231e08c53cc9745c9d6964c3b9f84faf2c128318bcc5ca8d93f99db33a014b017870ca9e3c;
  0x174a3ac68ba53e8b9b63641f5bc457abc83b198fbace7c839bc9e207ff6c1653c8915c3f5a85e92b9e2315be02bd9c1bcb031eca0e1c59fb9f67b2ffb1ffd9939;
  0x13456f8c64153b4b98fee5550770834bc5c62c8bc90ccc7b9a3a8724935208c3992c341cecb799cbc71836c8ebbf37e3c60b9eb2f81424439a7384b3504678f3c;
  0x12eed0d7fe17772bc0e535b82e13e4d3bfb7a7c0351c68b3942ff533687cef53c10f419d7ad537bb9635fd9a3980529bc314256e0a653543966e6fda44636e23c;
  0x185597ff4213b63b900a7f17b38a06dbbcde2a8aa3e67583902b9581936efa23bd0b518cabbe911b92b837554971308bbf89377f292770cb940fb72241f0d4439;
  0x12ec9c818fa363bba6379f2d45616f1bd31b4afeacbe8a1ba826073d6dbf65f3a99e19505f6fe4abd506267f031a1543d67124b9fbf03073ab8083785913e1d3d;
  0x1a4b3eba754c5d4bd73295559aa7d403d726d939efe917d3ac3182a6da196f93d910d7f34f64628ba2c0878d49cc6f0bcf7a0bdaae864fc3a61302ad9345aec3d;
  0x18013ae0b247156ba4e76bcfa834796bd1ba1f79d3354333a6c2b81d90dd9523d38977877a89a44ba874b7152eccea8bd54b4f385709e76baa58db03e41d8a33a;
  0x1272f35cb33574fba8170d0cd52076bbd4f12e5aa4d5fb3baa02943f761d8563a936ae2b1e70ab1bd6cc1361b7dafbb3d615f9c9983ebd33ab20cb97cfbd0c63d;
  0x1704cea99bbb1b9bd4fa286931a520b3d3d1a6e7ab6634c3a8e393e62ae30013d5aee6511ab4ab4ba470548d64e0693bd14bbca78ba930e3a59cde9aa2d139a3d;
  0x125cb3fbb9794e2ba294040d2f4fa18bcf6cf6e2af004823a353d7e6f11820c3d036b3188ecc61bba6333475ca59f45bd3117d68fcec912ba81c4c2a1a076643a;
  0x1cf6dd1a5ccd3e8ba32777af54cc17bbd0078874f2020dfba5111f00673a9f23a3a4e77c4ecd935bd1e7baf7fa2b6a63d078d37edf203ea3a587d08f7a8ff5a3d;
  0x1f55a6a2877ac17bcdb8c8da01255083cc2f5de163533a93a13b62fc84b7c0a3ce18b9dbecf559cb9f851a23422ff95bcc5fad6168b21e93a01d20d94d8c3673c;
  0x18c73e40206fedbb9b68b6924e5a2d3bc83dd3bc017732539bc5afb312a80623c894d58cac38f40b9f0ab1c0aea306dbcbdc55875c8942aba0ef1324f24359f39;
  0x1348409f6eb62ffb99d45797b7ee954bc6a172bb4d8d5b4b9bb0c79243da22e39a12b47d303bd90bc8824b1be3de0a23c6ebf5729230b6e39bff2dd709cb24b3c;
  0x13c66d39e249cfcbc24e7261dccd94f3c0941a7cc2e63c9395a2b48a74b322a3c275f1d2f322e0bb96389633bc209bbbc316894ade2ddbc3966cf881b844ae03c;
  0x192ef5921b0553cb900fff8778a46aebbce24e0617a22d53902e7eb1dbeee423bd0da1da3c96e19b9394bb5fd9e961bbc0696b8d5e9c0c1b95783f55743f43939;
  0x116d0735f24eb05ba64e8b88a7a39aebd334d7d085a64cbba903e6357ba32653a9c55259a2c41a5bd5d1008259887aa3d6926fb580764823ac54241eb1a47df3d;
  0x1a68053dd05951ebd80fe8975269a163d74170d9058ac3e3ad0f86c0e44782c3d9e3f833b465682ba0f7508199dbb52bce18227de98650e3a4a1a84330c87b83d;
  0x18c846331f04717ba312f81be33251ebd0479dae38b94493a530cb9a6f48cce3d2238fbe8a1eb1fba896071d74871c8bd56930abaf3e175bab3176d59362b323a;
  0x1112e075a535e60ba82f28c0f339ea8bd50f02c4d0594d3baac80893533f9833a954c3c36499820bd7980a74a586e703d62f0bd727e95ab3ac000a08eb6bdeb3d;
  0x171d484387feebcbd5c0e93ba8699583d3fba620b3b47863a9ad50ddfae5b843d67e2a259dc37b1ba3280e0e4a8f39abcfeba36d00fb9ee3a463b8fe5c9fac53d;
  0x133543b71c6fd59ba152d60a6f9525abce0e70e2724a87a3a1fc65d6b62c3f73cecc75f583e07c4ba64e147bc353b62bd32a27e432210cbba8f8acc94d164013a;
  0x1b74a00dc79fe95ba3434baedb20a41bd01f4d0c8d056f6ba5e5e79b02a3bcd3a3ce9771497674cbd2b091562d458673d09acfdc35cbf743a65ba9a22931ce83d;
  0x1f7429940d8ef34bce86ee79fefd3843cc4aba2c95dd5fc3a217c3ff4d2034d3cef1f390cfbedfab9e03a4453a326e0bcb049858fb0d61b39ea0f24d89a57143c;
  0x1993c13eaacee95b9a1cfc548215b16bc6d70618bc8af9c39a46ad1edf37c803c72bfc16850edffb9f22a093adde43dbcc03a5b16da3508ba1b7b12cd03e1ea39;
  0x11e6796c6419679b99ffb0197622818bc6c718ffc9a9aabb9c7ffe0caf3398f39a2d0f68478471abc9569a7583c31e43c70c2a072b626ba39cc5b86c460816f3c;
  0x13edfe4e658e485bc3289ee2f4b84533c0b88ca529c9b4b39674a65fcca47fd3c34ba6b7b07b001b949b019852b008ebc19ccb5b587821e394ffdb4ff84a00c3c;
  0x197f47acb0a661eb8eb695d721078d0bbb65641414fc59438ee9dde1ed42f783bb8f9932954a984b93b999a42a56219bc08a0436d36ca77b964c8bcc636688639;
  0x10180d8d918248eba5d6d7ae46e9d52bd2b0664cd0db464ba94840612ed67023a93d2f8ccb851edbd626244bb4191703d619b7d3e12c4ca3acadc27566e1f373d;
  0x19f93b8c9cafaf9bd857ff41de4c1e43d6c2098c818b44a3ad581768218feec3da3223d063db5ba39ecd788fce10c3f3ccadd80681f9574ba3183faea39294abd;
  0x19209ef5d7a6031ba1ab17cd6462e463cef6b32b3ac8dc0ba2c47009c9a839ebd0bf60960ff0d3fba81bdedbfe406aebd4f9b056d8f6884bab825806ff154fe3a;
  0x1fa5c6a61e4b5c6ba7a992f68e6ecc0bd47b6ea0e46e8b7bab20e8198df11783a8dc869f03a8d7abd8021c44a2f53ac3d5a848a4ac0e37d3ac43d8873aafbaf3d;
  0x16927e64f91a104bd61bf69af64f9af3d3635ec3fd4defa3aa0eefb569a8c2c3d6e37bfcc04cbb73a0752ad615476833ce7930800fc910eba25678d292b71a0bc;
  0x138741c310bc8f439f2f33ea3eb0bba3cc9ef833af7f3adba0ddef620737bd3bcd61450bcd1637bba5d87c78e7dff59bd2a16fd605deea2ba93e58743e8ba113a;
  0x1a1de1a78555207ba2cb8d9ec02dd1dbcf923d484b6ada8ba63274e67878c013a3417fdc978acb2bd311a009e8e5d963d01f94ccfdeb2ed3a6b78a8755231a03d;
  0x1f02ea563c5bcbabceee9355b2e9a443cbcf09f4790682d3a261d63cde7d3693cf3afbfa2df7ed139cb36d02a63e16d3c98fdca4d9da872b9d7fd22a82d25a0bc;
  0x19fecc6ea7cf2df3980806689ebe2083c5695faf64ee505b983b68d09ee2ffebc5cc4d51bc0fd67b9e97f8f15432f69bcb6b85bd6f881efba215898e5a6ee4539;
  0x10753a3f78dbcc6b99663e817b6c4babc63e952753e356fb9ce6c1b529a3ec3399a6d09c844852bbc9b16f3dd1d88703c67772587cc125b39d1da87e3a4aa773c;
  0x135a5512dfbeaa3bc37742c894363a93c03465fd2f93d39396d74ae943c89b43c3a3942ba9c2d17393b5f724b6f63a03c03cb31929bd41db93f2bf24ccde969bc;
  0x197683ca1b30a0a38cdb5c733fb6b063ba12318ec35c54eb8d5829292f5c631bba329357fcafde2b93370324f633eebbc013d2e9e61e346b96a52dcda3a505539;
  0x10bb3842ded5f23ba4b3014ea3c3323bd19206dc7f51ef1ba9422962d149d1e3a8223a4af1cb4b1bd61f6a43888a7603d505edf44ecba5f3aca45d5438fa9183d;
  0x18c9fe91edc0809bd8502159db55f563d5a26cf2ae6c4f13ad4f7df633315913da2b238a3c995383a0a2f49c6527f6c3cd54243dad697f4ba3ecf2ce8d51ac6bd;
  0x191a053ff1575573a2907e5dc930c723cf8dcb28198bc04ba441a58bc158f12bd162041a6169dcbba7025300fe44d58bd3d62b024899ff0bab79ce85bcf21283a;
  0x104dc1e108cfeceba6865bea5e57faebd360c7a77f12d33bab1afa4c19d72de3a7b7a6961ed1967bd7f86a5bbf1169e3d48a7b24eae443f3ac3cca6a99214d53d;
  0x157261cd5f30851bd61578299e82cd03d24a6879a92dab23aa08e63796f90203d6d86d768bb9eba3a1df2ccf414f99b3cf2a79b3528d736ba375efb3a4ed357bd;
  0x137e4f2d3a4358c3a07f53f31ce0d103cd485f0e4e834f4ba1327f4a9f0bf1bbce178c1fb8e0b37ba4bd5163d932c6dbd1841d755d83615ba9389c742c6eda33a;
  0x1ac471b411ca887ba1a751501081da9bce75fc2fd536c4aba62bc310041e5a33a22fe7b92cf3413bd30b5e1eb36976b3cf0b617ed243ea13a6acd635ff72b093d;
  0x1dec33b8ea8b7ddbcee343e0bce68113caae838f06b92ee3a25a61f879bf9813cf33c7eca52d9ea39d676ea3c3e19173ca3c6a9a260a4d4b9da06ba20256b04bc;
  0x19f31dffaf08c1a3992d10252e159c33c61df5d0bb85304b999236ef9bf90adbc66c3e59c8b5d0bb9d7e3c7c4b2c41ebca51fcdafe5d5bbba20f1963c3c9af839;
  0x1127571bb11a13eb984a82433e92318bc528346120cfb8db9cdb43142f7e05b39885fa81b203833bc9a785bae9ff4003c55d1309e2b7f3739d186d97e3ea53c3c;
  0x124146aca412b33bc36eadd87f9108e3bf1ebc5931f26a9396cccbad9dc88b13c399fbc6d44d06d3943425b6f1f14843c0f537c3258b7abb9440888439ab167bc;
  0x19279ad8b2470a438e0b0d6d0eb72763bab1f253697daedb8e142cf5895c8ecbbae531fa4222b16b9221ac41a1c5d82bbf007307b83120eb969b463a38303d739;
  0x1fc5c9d630046baba32c32a87ccd809bcfd842632c3e705ba8fbacc920834d13a6550a569cbd492bd5c5b6c76b897143d333b0052b647843ac4c82c3e2286093d;
  0x17067e40480e897bd8094ed46ccb7cc3d3eb85dd0f3d45f3ad0932cdcf0af933d9d838995468254b9f5d056c8f360d53cc5c4096dffa13cba2eb1230a96d51abc;
  0x18bd32b530742683a199500df0da1813ce97476f1cd44f5ba3f60e3c165ab57bd06a7525714787bba52d4f4327ab910bd21426fadfcece4bab2af7d756c54263a;
  0x1f55b7417d5c841ba4d2abeb3e21c6bbd19e68c00ad84f2baabef83f4b6420f3a603c287dab690fbd78e22b51d73bb53d2cf6534f0892ac3abf4590f8ca750c3d;
  0x13b8093a561e0f5bd5b6037fc051f033d084210e1df1f343a9a1f62691c8e173d674e3347ff44063a1207a68a430e5e3ce3197b40f13d5dba255a198843c33dbc;
  0x132dc1ceafaca3d39f75331706f4b173cc50338debe89d8ba04370ade99eb2bbcd1e369549d43e6ba307bf8575f82e1bcfc7ead23e323cfba8ec801b8677c473a;
  0x19cf3b967e22a76b9ff805d83e37b46bccb751a056bd288ba5d956a7d2c2c373a05b357f3d5f3f7bd2a6112adf5e6153cd3a175b5c4014b3a653531bc2671183d;
  0x1c1adf582d40b01bce7d710d9cc03d73c8f9b9173a38bb73a2112d4deb5c89a3cee5dd12abb3ea939beaaee067203b43c943f61fa2a34f2b9c08328b6179813bc;
  0x1989f421b1c09623984257a4c976b413c524c76bc885163b9882e831bb55b05bc574edd3962e607b9bd2ccc6c7a6ce3bc88d08698938213ba1ac8697584711939;
  0x102e61f91c897c4b96836f4a5017408bc35bf34da639ac7b9c77e6f9f6a0aaa396dacf56a87f0bfbc94e495e60a0d593c39a0e6a3eaf8df39cb8a6eaadffdee3c;
  0x1089896a118833abc3216b8da1ac0ef3bd50d3cdb30580f3966b51f9146a3b93c34399b0414720f3935fc5d0d3983223c00095b084ad220b93b1696860b1d83bc;
  0x186e5d10486e81a38ccd15f51ec53ee3b9bc4b4b5c2bdb2b8d0fb6f24c14fcabb9f0c3c95af2cf6b904fcceedefcd38bbd2d4002b715f04b9644423e250968f39;
  0x1db03373efb40c1b9d0846776c3ee8ebcd0e677a26ac66dba83ad86e1d50dab3a3cea5fbe8ae023bd51928d751c089e3d060594e747b6b93ab9b030d0dc4d6c3d;
  0x1442554d8c8665ebd748d07f1898e0b3d1196f1ed7979403ac490a2d799f5593d924a0cb7a46090b9d9154862623b2e3ca4baf757e93598ba03bd217e642fd6bc;
  0x1813e1e27a7f6753a18d573c3be76a83cc83e774ece3d15ba25cea15e66c8a8bce593704e213c52ba2ad4d2be9cb2bbbcf3c3c741098e9cbaa71061f524664c3a;
  0x1d4575ba8318883ba2127f633fe0cb8bceda8fad8aebc17baa15302c6a8e4793a2f87a49875541fbd6ed6fd9bc154c53d009543313546ae3ab35dcac5258faa3d;
  0x10f7e1f0978704fbd50f6e27cd1a29d3cdbc7772debce233a90381be97845033d5ce252f83d4e693a06f2ee9ac9a8043cc230e18cc6f2d4ba14a433338e90fcbc;
  0x1275fd057baa9a839df7f8a2ba8adad3ca40352f1b068bdb9ed2a25302fbfd3bcb1098fc2bfbc20b9fcbeac20c1812fbcd050c11a3998b4ba830e219231e13b3a;
  0x17b9323013b76dbb9d544b0274ed4cdbc9f7162a986ad0eba526259baeac91e39dca2b30d83b839bd2058c65d32dc403ca67ae9859a85883a5a45e2f457edb53d;
  0x1956b89e18c4bddbcdd8bf3730d73653c62190902daffe93a151ae747be97c83ce2d1506e5b73e139aa350bbdaded443c7348cd0c39e6beb9bb3b97bd713979bc;
  0x18e841030d59c2b3961a5bfdaae60c73c316d9dcdfa361db96ad73725498090bc363302cd3a6dcfb98db278c62357b2bc5c6a9a85a718f6ba108d9843a6e58239;
  0x1e1fff7526a54e3b9400b47e31e3659bc08e74b4b4e993fb9bd0b9e9cfd92713940192eca09b4b7bc89e4df17989db23c0d593987141fb839c11dfbe5685ddd3c;
  0x1e0206c3993ffc0bc266b2c76a645c93ba81b7e33819362395c1d50768848073c2910f6d077b12139004649652181093bde8c1d56ea9b12b91d37b2dd7a613cbb;
  0x16eb50f56e043f33895d58195aee2dc3b7a728890c2b379b8a0e3d5bedf61dfbb7d92205c2f4d0db8dbc994df51e820bba58fa1605a35c1b95927a8f423a72138;
  0x19044d39a1ef58c39d17483ebef8e83bc782fbff03b47a1ba6a653938330e343a021dddea51ec26bd3790d69ebb77c43caf8420eda0de1b3aa138143862723c3d;
  0x1f2db3f5468003bbd5b8f5e8c32e9843cb92c50149c986f3aab9410df048d413d7886eb5c5c6f9239ecba66cfe4ad9f3c58f873cd80a6f2b9e4a0877470f9b0bc;
  0x1671f9b2830686d39e19868637768c23c7d33ef908d0d32b9fd23248e81c129bc99fd33be1e8cef39a835e7041728c8bc9c49371ccfc972ba8eff162dfc4e1c39;
  0x188807869f0b246b9e29ce9acc0548cbc9539481c2642d5ba87377354d33b5a39954cbd14fd035abd54add61d0680523ca7bb88ea2595ab3a99f74c99b946003d;
  0x1c820d00e7c83cdbd36c013fea099623c83e0b9e70efc1a3a75bf73547e1ef63d435e1fb867c1a039e2da3e07265e523c75e9661e0ccdccb9ebb3d6a43f2ba6bc;
  0x10f58aa7c56ca5239be95ddecbb42cc3c581b3f7e51cff6b9b15d52de5a766fbc6485acbf86264839a9aabf2799ed1dbc77597d93c46803ba6988211e9f874d39;
  0x1309b817d7f7da1b9792ac2af130da6bc467fdec33b5812ba38a551bd389758b96b5e7177828b9fbd05ec0affd7bf143c501605a921aef83a419ef26ef98b963d;
  0x1554679f72110f0bcc3cfdd2eaec8a73c09e67d3822453c39fc471fdf51e1a13cc93c51467b8171b97110ee29a14ca13c273a92d6ebb29b3970fcb04ac3f2a9bc;
  0x174763b2130f8bcb915e471d74fb7983be4fe31e29b2d27b90cfea761ab48cebbeabd69cb59a429b956314009b578f1bc04557659804ee0b9f635ad029df1f939;
  0x195ae7a98332bbab8f50768b0db5591bbb1d1f254af823cb9a37497c4b3e0de38e38add53fc906cbc715cdd384c18433bb50036295cba6f39a707dbdbc044a93c;
  0x1a237dbefdad1c8bc0e10969c433e183b51401d04033c8b3942da86a38012ff3c10cec610af2fcbb8f41b415511bd383b9265d1e5d4274138e49bd522382a06bb;
  0x16eb50f56e043f2b83fb085f1981de93b2fdb60a2f8ab80387f0e1d32abf086bb31cf4270eed886b8977c802ae903e0bb4edb531da45c74b940d12f3b307ebd38;
  0x19044d39a1ef0f739d771ed712f84aa3c782fbff03b4721ba6a5b4d5e36d9f8b9edd74ece1acfc6bd3790d69ebb77c2bcaf8420eda0e0fc3aa13fa1011026aa3d;
  0x1e85cbd345b974fbd5b8f5e8c32e984bcb92c50149c98043aab72e6d0d811513d7886eb5c5c6f91b9a23bda8c8087883c58f873cd80c3e9b9c8932e4f8bf59abc;
  0x1671f9b2830686db9d0a6e96e27eba53c7d33ef908d003cb9e1ab55b1b6d430bc99fd33be1e87dbb9e56d053eb90e363c9c49371ccfcc80ba8efeb0c5a28dc3b9;
  0x188807869f0b5f4b9ddc7b09a58dba13c9539481c26430fba8725f42dc9a369b9f11593f14a55dabd54add61d068051bca7bb88ea2597c23a99f91e223020cc3d;
  0x1c826205f0088bbbd36c013fea09962bc83e0b9e70f005d3a75bfd9c0f129e63d435e1fb867c1a0b9b658b6e6d6b1393c75e9661e0cd0d4b9cf13a4d265696bbc;
  0x10f58aa7c56ca5039b8c65d1a0046733c581b3f7e51ce82b98e2c0c505e2e00bc6485acbf86296e39986ce2ac19c3c23c77597d93c468d7ba6984e75b74903839;
  0x1309b817d7f8119397745ca7958af5f3c467fdec33b5269ba3891c618313131b9830d6def2d8f9fbd05ec0affd7bf14bc501605a921b1573a4194732df476d63d;
  0x154b9f5ef77681fbcc3cfdd2eaec8a6bc09e67d3822479c39fc49d92d15d9053cc93c51467b8171394283a093e101f33c273a92d6eba88fb9833ccc07d8d5a7bc;
  0x174763b2130f8bb393092e823829e533be4fe31e29b2fe9b9282335206e6b40bbeabd69cb599ca3b953a83c3865059e3c04557659804cedb9f636c36e21a59f39;
  0x195ae7a9833417838fc6918ae83246f3bb1d1f254af7d0bb9a3827cb851cc60b8f46841d0964ef5bc715cdd384c1843bbb50036295cbb1a39a6ebe361ae07463c;
  0x17a011b3d3fcc73bc0e10969c433e19bb51401d040341a83942ea9c8b4739213c10cec610af2fcb38e40b74174f5caf3b9265d1e5d425c6b8d27187a3287aa9bb;
  0x186e5d10486e81a388a7e1726f25f643b2fdb60a2f8a7fa3846e679c2e15037bb31cf4270eecfe5388ce657e2bba4653b4edb531da45165b940e3db42db463b38;
  0x1db03373efb421bb9dd7a46ba7c22ad3cd0e677a26ac644ba83b1904f2896bbba3129135e375e9bbd51928d751c089ebd060594e747b6e13ab9afafa331dc4a3d;
  0x146fe6d03b8c400bd748d07f1898e0bbd1196f1ed7979893ac492032ff7e3ff3d924a0cb7a4608eb9fa872a564964cb3ca4baf757e92abeba0dde0d9d3c9ad4bc;
  0x1813e1e27a7f6743a15c7d544306c9e3cc83e774ece42f1ba027e17e2243048bce593704e213d313a25ad159f677efe3cf3c3c741098f1abaa704a3f0201f67ba;
  0x1d4575ba83187f43a2058e2ec42a5c43ceda8fad8aebc21baa1462e06e6264aba302b5bf0185d8fbd6ed6fd9bc154c6bd009543313546b13ab359d0147205003d;
  0x10e7a2cfa173f54bd50f6e27cd1a29bbcdbc7772debce1b3a903b1076937bbe3d5ce252f83d4e693a03dada47add59f3cc230e18cc6f53bba079659906571d5bc;
  0x1275fd057baa9a839da26e298b1beec3ca40352f1b06892b9e88fba2b0796d3bcb1098fc2bfbce339fec6903f83e2ba3cd050c11a39988dba831c3b04b3b5beba;
  0x17b9323013b76c939d169c13d6095fb3c9f7162a986ad04ba525fceab148989b9dbd0274e08c648bd2058c65d32dc40bca67ae9859a85873a5a33615c33d3ef3d;
  0x1992eeb6b0e2ca7bcdd8bf3730d7365bc62190902daffd93a152134534dbac43ce2d1506e5b73e1398487f5c7ef209d3c7348cd0c39e740b9941b1105a7dc98bc;
  0x18e841030d59c2d39612fff0d1d50a63c316d9dcdfa3619b96595620759ff9abc363302cd3a6da539923b563ff0803b3c5c6a9a85a71930ba108f27a63b934eb9;
  0x1e1fff7526a549a3939f685786bab4f3c08e74b4b4e98f5b9bd09cef299016cb93de04a68e63d52bc89e4df17989db1bc0d593987141fdb39c123f4ff7cd8543c;
  0x1dece6892ffc97fbc266b2c76a645c8bba81b7e338193d3395c18874c66d6283c2910f6d077b1213917ec1c5974d3f83bde8c1d56ea9a5db914306c642e3e20bb;
  0x19279ad8b2470a538b639266b4630063b7a728890c2b292b8bcb62fec15fb10bb7d92205c2f4d5938d85ca4f9ac8b3a3ba58fa1605a3530b959259fcb635f97b8;
  0x1fc5c9d630046b73a2a779d7a197a1b3cfd842632c3e723ba8fb85164e0a1cdba6592b03244c541bd5c5b6c76b89710bd333b0052b6478d3ac4ba77dad91ce33d;
  0x171f0e4859d7910bd8094ed46ccb7ccbd3eb85dd0f3d44e3ad091811fb9ddaf3d9d838995468254b9f4d8b1434b745e3cc5c4096dffa144ba2e922e59e1d789bc;
  0x18bd32b530742683a1debea74d927543ce97476f1cd4516ba33e618c7090810bd06a752571478463a51e37a787d57d03d21426fadfcecdebab296fd3888de70ba;
  0x1f55b7417d5c8583a4de0c123e5640b3d19e68c00ad84ecbaabef6e187fbcc7ba5f081e09277f7ebd78e22b51d73bb4bd2cf6534f0892b23abf2974d9fd13ee3d;
  0x13a95e74c47cd0bbd5b6037fc051f01bd084210e1df1f2e3a9a3e327dabdd613d674e3347ff44063a14b77ad986d4ad3ce3197b40f13ce8ba2856f649589b46bc;
  0x132dc1ceafaca3c39fbff2cca2543d13cc50338debe893dba04e93207d87134bcd1e369549d438a3a30a49b7af335f73cfc7ead23e323c9ba8eb4d392fe42deba;
  0x19cf3b967e22ad939fe8870e9c85a573ccb751a056bd285ba5d9423a546a6b2ba05b29179e88f59bd2a6112adf5e615bcd3a175b5c4014a3a65263d8f39d5373d;
  0x1c24b23f25a667bbce7d710d9cc03d5bc8f9b9173a38bc03a21024748de96813cee5dd12abb3eaa39c84cc2dc0145223c943f61fa2a35b8b9cb095bf485a124bc;
  0x1989f421b1c0962398d197673ffa0643c524c76bc88515eb98d857dc10e9046bc574edd3962e63139bba63513d459163c88d08698938212ba1ad7a6ecb2e386b9;
  0x102e61f91c8984d396840eabd6498ea3c35bf34da639ac2b9c767aa681a8457b96d75f40a4a2c3abc94e495e60a0d59bc39a0e6a3eaf8de39cb8b626b619ef13c;
  0x1088c27706654b5bc3216b8da1ac0eebbd50d3cdb30580e3966b0c28dbf28ed3c34399b04147210392ad6e10c9636a03c00095b084ad290b93593fc98a7a58ebc;
  0x197683ca1b30a0a38cf3156344e62113b9bc4b4b5c2bdc5b8cdf71ccfdc0b18bb9f0c3c95af2cce390557341afed4f53bd2d4002b715f10b9644e302ae98131b9;
  0x10bb3842ded5f203a4a6ead7c6099943d19206dc7f51ef0ba94328d737f8b66ba825689ca4881a5bd61f6a43888a760bd505edf44ecba5f3aca3c8f9bf3a7ae3d;
  0x18d83ef4c1e6c19bd8502159db55f55bd5a26cf2ae6c4ec3ad4fc05aa28e3043da2b238a3c995383a0a0dd529497d1a3cd54243dad697f3ba3ed35b7c763b0dbd;
  0x191a053ff1575583a1e993d9a85ff2a3cf8dcb28198bc9eba4a2c89e73b62c7bd162041a6169d933a7117ab42dce1ac3d3d62b02489a012bab79adcbd95329bba;
  0x104dc1e108cfeab3a6892665d5dad6b3d360c7a77f12d2bbab1b6a26f445feeba7b339338cf6a4ebd7f86a5bbf1169ebd48a7b24eae443b3ac3c61fade884ca3d;
  0x157172788d6d1c9bd61578299e82cd1bd24a6879a92dab03aa0939c37402dbe3d6d86d768bb9eba3a214ad35093a4de3cf2a79b3528d748ba332e1ff8f0bc0ebd;
  0x137e4f2d3a4358e3a0b70f71c4d2dd33cd485f0e4e834ccba15a8b2ad3b4cafbce178c1fb8e0b423a4b6b2d98ba55b83d1841d755d83615ba937d367a296d5aba;
  0x1ac471b411ca8563a199a4e906db07e3ce75fc2fd536c49ba62baa00640b677ba22a768ab5128adbd30b5e1eb36976bbcf0b617ed243ea43a6ae7831df1c2773d;
  0x1de78b06697d537bcee343e0bce680fbcaae838f06b92ed3a2587348b1efa523cf33c7eca52d9eb39d708640164b52f3ca3c6a9a260a530b9e4ea36d5f77cd6bc;
  0x19f31dffaf08c1a399040188a62205a3c61df5d0bb85328b996b3b5942e4b5abc66c3e59c8b5cf139d82e52ecc3a6c63ca51fcdafe5d5bfba20ebd1e167cbdab9;
  0x1127571bb11a16d39848d79bbdd506a3c528346120cfb8fb9cdbc634c56cb53b9886a8ea06c530abc9a785bae9ff400bc55d1309e2b7f3c39d1882bd50116f43c;
  0x123feb49f1ee4a3bc36eadd87f9108dbbf1ebc5931f26a7396cca0cf39f4fee3c399fbc6d44d06d3940f58c2116c09e3c0f537c3258b707b942645ae1b50ddcbc;
  0x197f47acb0a661d38d89986c6c953f83bab1f253697db3ab8db63042833325dbbae531fa4222ad53921cc6d85a55a283bf007307b83120eb969ba7ab331194bb9;
  0x10180d8d91824333a5e3fef77fb8c103d2b0664cd0db461ba949c27b2e327a2ba93c5d1837f8301bd626244bb41916ebd619b7d3e12c4ca3acae40d40a55c933d;
  0x19f878effc99489bd857ff41de4c1e5bd6c2098c818b44a3ad5737e1e84d3a63da3223d063db5ba3a0025a7b1b64d763ccadd80681f92e6ba3066023be96769bd;
  0x19209ef5d7a60323a22db98db1e43a73cef6b32b3ac8b16ba41ba94fb3b0cf2bd0bf60960ff0d953a81d64153e6d38e3d4f9b056d8f6884bab8128a53ab6f0dba;
  0x1fa5c6a61e4b6503a7a83039bd9ae933d47b6ea0e46e8b7bab21c57abf53a49ba8d95217343b20abd8021c44a2f53acbd5a848a4ac0e3803ac4369d6a1fe7473d;
  0x168b4469c267686bd61bf69af64f9afbd3635ec3fd4defe3aa0fb2b1a6901973d6e37bfcc04cbb73a1dea818ee447be3ce7930800fc90a7ba33c821a07a0403bc;
  0x138741c310bc8f439ff87eaace5e19f3cc9ef833af7f2b5ba0794a01bf60fffbcd61450bcd1632e3a5d3d6ba76d7bee3d2a16fd605deea2ba93f8d03523a502ba;
  0x1a1de1a785551c13a2c3661b8e588913cf923d484b6ada7ba633a75591f3c45ba342f209312a443bd311a009e8e5d96bd01f94ccfdeb2ef3a6b6ac4adb917b33d;
  0x1f039b4206c8e6fbceee9355b2e9a44bcbcf09f4790682c3a2622e92744a64a3cf3afbfa2df7ed139c6f442a33cb2223c98fdca4d9da8c1b9d31a316da2f40abc;
  0x19fecc6ea7cf2df3991b4dff4914c053c5695faf64ee48ab995d70c087ddc1abc5cc4d51bc0fd7839e99ce5e13d11183cb6b85bd6f881efba2166e85c53015bb9;
  0x10753a3f78dbcf3399678812d4e02363c63e952753e356db9ce69e4e7b4aa75b99a25c401d75420bc9b16f3dd1d8870bc67772587cc125e39d1f917797a36fd3c;
  0x135bf23c194391bbc37742c894363aabc03465fd2f93d3b396d7f39da4656393c3a3942ba9c2d17393d2717ebeb026b3c03cb31929bd431b93d644cac524ae6bc;
  0x192ef5921b0553d38d751210602ce283ba12318ec35c4dab8de96e1223b23cebba329357fcafde939337974d3c185633c013d2e9e61e346b96a5c6aff4073ceb9;
  0x116d0735f24eb093a659c786f2726cf3d334d7d085a64cbba906532d2147000ba9c3ead9d96a400bd5d1008259887a9bd6926fb580764813ac53f4fd872d5b23d;
  0x1a67c006dd69a54bd80fe8975269a16bd74170d9058ac3e3ad0fbb11ac3d6c53d9e3f833b465683ba18583b97561741bce18227de9865523a4be298377be9053d;
  0x18c846331f04716ba2de5f8c80aa044bd0479dae38b94ee3a539bdafd80025d3d2238fbe8a1eb3d3a8971bf94045cf13d56930abaf3e178bab3077d5c42f083ba;
  0x1112e075a535e5a3a82e8d423f461943d50f02c4d0594d3baacac6be3e84fe9ba953e098d82df72bd7980a74a586e70bd62f0bd727e95ab3abffbfc90acdcf23d;
  0x171e20e642bcbadbd5c0e93ba869958bd3fba620b3b47863a9ad73de894c9353d67e2a259dc37b1ba3248028d97b8dabcfeba36d00fba243a43f62b4487b1243d;
  0x133543b71c6fd59ba12f0f0d5cfa66bbce0e70e2724a89e3a1ead0b1dd6c6233cecc75f583e07b53a64ee387e4e05773d32a27e432210cdba8f7269f64c46a4ba;
  0x1b74a00dc79fe9b3a342b2fef46fc823d01f4d0c8d056f7ba5e4a0044319e86ba3cd947f05eb27fbd2b091562d45868bd09acfdc35cbf733a65b5d4ef053a0f3d;
  0x1f7330fb0acd41bbce86ee79fefd384bcc4aba2c95dd5fb3a21794782556a2c3cef1f390cfbedf7b9e2a44491216275bcb049858fb0d62e39ed014127e4a3723c;
  0x1993c13eaacee95b99d2d0e3e1059e0bc6d70618bc8b00f39a3b5d9052447523c72bfc16850ee0639f253c6e4d6b7403cc03a5b16da3508ba1b76887477fdc9b9;
  0x11e6796c6419697399feeab64f57d2d3c6c718ffc9a9aadb9c8075d6173294cb9a2da3a6438d789bc9569a7583c31e4bc70c2a072b626ba39cc448e4d2d6ad43c;
  0x13ed876a8df7e46bc3289ee2f4b8454bc0b88ca529c9b4c39674e8e4940c3c43c34ba6b7b07b001b94c48a66a073e8abc19ccb5b58782353950a21023b90cde3c;
  0x185597ff4213b68b8eb0881392b8ffebbb65641414fc58e38ec89d7ec87d9dd3bb8f9932954a964393bcf7c22383cf53c08a0436d36ca7ab964c97e3e964f3db9;
  0x12ec9c818fa36403a63f97bccc8aa0a3d31b4afeacbe8a0ba82758a99fb6f54ba99feaf2ec34b86bd506267f031a156bd67124b9fbf030a3ab7ebae30a9333e3d;
  0x1a4a407c87e4b01bd73295559aa7d45bd726d939efe917f3ac32c4f017ffb603d910d7f34f6462dba23ac8a325bbe11bcf7a0bdaae865913a6149ceb07eec763d;
  0x18013ae0b24715bba4ecccc4f6e4cb3bd1ba1f79d3354363a6c15fe03d318043d38977877a89a3d3a872c691dc86ad03d54b4f385709e78baa579ed29629e9eba;
  0x1272f35cb3357213a8153a56f8d51e13d4f12e5aa4d5fb9baa0219f6e189d15ba9373d6f7ce1185bd6cc1361b7dafbfbd615f9c9983ebd43ab20819a42770803d;
  0x170562a2c13bd69bd4fa286931a5215bd3d1a6e7ab663543a8e43ba9bc1b71a3d5aee6511ab4ababa46c9a628a583c0bd14bbca78ba93233a59beafb926b53f3d;
  0x125cb3fbb9794e6ba29edff23255d3dbcf6cf6e2af004b03a35e2de72f4ce783d036b3188ecc62c3a6340501d74f7ac3d3117d68fcec915ba81b6556bdd0161ba;
  0x1cf6dd1a5ccd39d3a3287261d2e273d3d0078874f2020d9ba511cf454b712dcba3a71794de166fbbd1e7baf7fa2b6aabd078d37edf203e73a5881daa0a872933d;
  0x1f54148fcb943e9bcdb8c8da012550cbcc2f5de163533a93a139ce7af27a3583ce18b9dbecf559eb9f8389da15c03b2bcc5fad6168b21933a0179367c9059de3c;
  0x18c73e40206feddb9b70129f0c8347bbc83dd3bc017723c39bc61196ae123ba3c894d58cac38e7139f0c43d36a8989b3cbdc55875c8942dba0ee9b1f6cc154eb9;
  0x1348409f6eb6341399d481999c61c703c6a172bb4d8d5a7b9bb0d7d126e096db9a143962e57aeb9bc8824b1be3de0a4bc6ebf5729230b5e39bff50d4fbb3c693c;
  0x13c698f90b75bf9bc24e7261dccd951bc0941a7cc2e63b0395a3ee949e61fb73c275f1d2f322e10b9645e7d64e07f6bbc316894ade2ddf43967770d44c39a6f3c;
  0x16ef94181698760b900bce19b6cc712bbce24e0617a23b539029b6e04d392253bd0da1da3c96e95393968a5f9918f243c0696b8d5e9c0acb95783dc98d0d1e9b9;
  0x12e8626223025173a5592f4e0e0b1d33d2343759acdf38cba6a777bd3137cc7ba8c2fc9eff7fcb1bd37c52c98aa277dbd5919e9dea5d87e3aa1647c37d759d83d;
  0x1967222946d525abd5bcc936724b84dbd640c9d68ee651d3aabcb3203755c2d3d78bd63d80dd5fdba2a04f371333503bcf76cd65b585a103a61312d158b64103d;
  0x16752f5a9915487ba4f1717edfd87b2bd1b65442e75539d3a6b3a09767f824c3d38617329f037e83a7935274ecedea93d46875023663f4bba8f44c32ca2d0ccba;
  0x126fc47e073297f3a72fc91f53c64053d40e75f5fc16a42ba87745c49ff584fba853dbb8b7ac389bd54dbc2e23376cdbd52e6e6354c727d3a9a25abb72f2a6c3d;
  0x161bf7450c80642bd36f29a58f8f9a5bd2fa9e5eea518443a75e7a0cbf661aa3d438922ed2b4b75ba46913be87a665fbd148e3ecf8cc4cc3a59db4f4e5d95493d;
  0x10f9e47feb1c321ba29628cdefbcf68bcf69d52a69e4a483a35823a4b83188c3d03408947a49ffe3a54e0628a8b88cd3d2298cfad743c05ba69d358d8f23130ba;
  0x1cf28c7577d6c603a241565972986623cf1eb7c6fcb43a0ba38dc251b99f7d9ba2cb2bbc94dee4cbd061cba74b6e950bcf99fa6a98acfb23a41c9470e7581b23d;
  0x1e73afc2cfabb1abcc3fbdcfcb517d1bcb4a0e56f1d65ba39fc8b8dae166e373cc9745c9d6964c3b9f86324099467c4bcc5ca8d93f99db53a01c7c2903668843c;
  0x174a3ac68ba53e9b9b585509f4a6c9fbc83b198fbace7ce39bc14a0a0cffb253c8915c3f5a85e9239e2335a51d2a97e3cb031eca0e1c59fb9f674cc28c7a2d3b9;
  0x13456f8c64153b6398fe7c16e2efd6c3c5c62c8bc90ccc7b9a3b848814c92feb992c57d7c405f44bc71836c8ebbf37ebc60b9eb2f81424539a7373cb080b17f3c;
  0x12ececf3eb7f937bc0e535b82e13e4dbbfb7a7c0351c68c39430ae45d2b1f1f3c10f419d7ad537bb9637d4771918a97bc314256e0a653573966d201f3c5af663c;
  0x16ef94181698761b900dc50ee3b52b9bbcde2a8aa3e675a3902ae63544590b73bd0b518cabbe911392b9cd435fac3b23bf89377f292770cb9410e2e1911d383b9;
  0x12e86262230251b3a55b2ad94e6f40fbd2343759acdf38e3a6a7cb14fb341c3ba8be9bf433e3418bd37c52c98aa277c3d5919e9dea5d880baa13824cc69b06b3d;
  0x19647999cbf4bd1bd5bcc936724b84d3d640c9d68ee651dbaab7f4a85e107cb3d78bd63d80dd5fd3a28c1fee8903ff5bcf76cd65b5859deba60e9360db35efb3d;
  0x16752f5a99154873a4ee2a2fdc5dbdabd1b65442e7553a8ba6b2aea349d4a4a3d38617329f037e63a791f1eff3d4242bd46875023663f4b3a8ee27504d32ccbba;
  0x126fc47e07329823a72c6e85500d609bd40e75f5fc16a423a873e3e17c15008ba851d5b70ba9e3dbd54dbc2e23376cd3d52e6e6354c727eba99eac84c7371523d;
  0x161acb9c50b42d5bd36f29a58f8f9a43d2fa9e5eea51845ba75b72eac4752b03d438922ed2b4b753a4670c6a739dc08bd148e3ecf8cc4c7ba599ba416ebf2b63d;
  0x10f9e47feb1c3203a28a3760b42e5f2bcf69d52a69e4a46ba356ae45f2a60c13d03408947a49ffd3a54bf2467c7060cbd2298cfad743c063a699cff0540e832ba;
  0x1cf28c7577d6c5d3a23fd303141b050bcf1eb7c6fcb43a03a38b1db6ff0195aba2c8e3454c0ecfabd061cba74b6e9513cf99fa6a98acfb3ba419b55610ba7bf3d;
  0x1e6ef46fa064872bcc3fbdcfcb517d13cb4a0e56f1d65bbb9fc579c1cf7edda3cc9745c9d6964c339f8699b88a88b31bcc5ca8d93f99db3ba018ac7d58671b63c;
  0x174a3ac68ba53e839b5d26f8c6ce98fbc83b198fbace7c8b9bb7888d735555b3c8915c3f5a85e9239e204aa6d7d0171bcb031eca0e1c59f39f6338f2a8d702fb9;
  0x13456f8c64153b4398f89bc8c31e505bc5c62c8bc90ccc739a38034cb8e6252b992a2d7a4c90ad2bc71836c8ebbf37e3c60b9eb2f814244b9a6edaa7dac5e913c;
  0x12e839c0e9cc0cbbc0e535b82e13e4d3bfb7a7c0351c68bb942e8ddbfdbdbed3c10f419d7ad537b39633746faacc1e3bc314256e0a65354b966937804d89ff83c;
  0x185597ff4213b633900c1405bbeb6fbbbcde2a8aa3e6758b902a1f953ae68503bd0b518cabbe911392b6fde13954198bbf89377f292770c3940ebbe08500bcfb9;
  0x12ec9c818fa363b3a641cda744a8580bd31b4afeacbe8a13a8241f95e31582cba99b4855a09d2efbd506267f031a1543d67124b9fbf0307bab7b44b8ad35e1d3d;
  0x1a4804853aaf18fbd73295559aa7d403d726d939efe917dbac308cf2c826ede3d910d7f34f646283a28cc214fdc2ce6bcf7a0bdaae864fcba613b6a4f5eed983d;
  0x18013ae0b2471563a4f523488f08b40bd1ba1f79d335433ba6ad0c452193e1e3d38977877a89a443a8701262c5417fabd54b4f385709e763aa54a53ab0c9de4ba;
  0x1272f35cb33574f3a814c82015b1d32bd4f12e5aa4d5fb33a9ff8ac0ec6e09cba936db1697fad0bbd6cc1361b7dafbb3d615f9c9983ebd3bab1e5ace287ade03d;
  0x1703c6e3555cb84bd4fa286931a520b3d3d1a6e7ab6634cba8dfe2fe5789e2a3d5aee6511ab4ab43a475699ac98c60dbd14bbca78ba930eba5a08d77e63f0373d;
  0x125cb3fbb9794e23a29c058004d78bdbcf6cf6e2af00482ba362dc7c8b8becb3d036b3188ecc61b3a6304d18eeb4d75bd3117d68fcec9123a819922a770e2b7ba;
  0x1cf6dd1a5ccd3e83a325c693024c8e4bd0078874f2020df3a5102560a2e22fcba3a5a7bbf2edd51bd1e7baf7fa2b6a63d078d37edf203eaba583dd014d172053d;
  0x1f50a86b27eca09bcdb8c8da01255083cc2f5de163533a9ba1384c87a5df6c33ce18b9dbecf559c39f8d39dd233c59ebcc5fad6168b21e9ba0150eb09cc5a613c;
  0x18c73e40206fedb39b5ded97e540c95bc83dd3bc0177325b9bc37f4eb02cb8f3c894d58cac38f4039f09d50554fa5e9bcbdc55875c8942a3a0ea7ddd2f74c79b9;
  0x1348409f6eb62ff399d10ba94b7c62cbc6a172bb4d8d5b439baef2b1d14bb19b9a134a1134769bfbc8824b1be3de0a23c6ebf5729230b6eb9bfab743221f6923c;
  0x13c11f858917723bc24e7261dccd94f3c0941a7cc2e63c9b95a1694abbd77a13c275f1d2f322e0b3963633ec32859f8bc316894ade2ddbcb9670fb1fb08f28c3c;
  0x192ef5921b0553c3900b340dadfd28dbbce24e0617a22d5b902c62bf1139ee03bd0da1da3c96e1939393616ff78fdefbc0696b8d5e9c0c1395738df463a9e99b9;
  0x116d0735f24eb053a6640227dab9f19bd334d7d085a64cb3a903f551008e051ba9be8025eeb31a9bd5d1008259887aa3d6926fb58076482bac5141b423efdb23d;
  0x1a66b36b173d856bd80fe8975269a163d74170d9058ac3ebad0d894869811ae3d9e3f833b4656823a176b4d0c94d7b9bce18227de98650eba48e85ca94ac5563d;
  0x18c846331f047173a3c98f316b98827bd0479dae38b9449ba55b1e251a2fff73d2238fbe8a1eb1f3a891920a8e7bb2fbd56930abaf3e1753ab2e8192d2cafd5ba;
  0x1112e075a535e603a82ecdc935a668ebd50f02c4d0594d33aac851ecf5b83e8ba950d3daa1203d4bd7980a74a586e703d62f0bd727e95abbabfc1f34cd895063d;
  0x171a40d05b10268bd5c0e93ba8699583d3fba620b3b4786ba9a92e193fcf0763d67e2a259dc37b13a2fb299af8c4374bcfeba36d00fb9eeba402e26e985846c3d;
  0x133543b71c6fd593a109da4f9ba3e8abce0e70e2724a87aba20494e963f34573cecc75f583e07c43a64c93dada2d9fbbd32a27e432210cb3a8f30fd2c8d71cfba;
  0x1b74a00dc79fe953a33f1756ea5e54cbd01f4d0c8d056f63a5e14a138f73602ba3c7f53e06952d6bd2b091562d458673d09acfdc35cbf74ba657d550b5e79003d;
  0x1f6f52a20bc797abce86ee79fefd3843cc4aba2c95dd5fcba214eda78e1980f3cef1f390cfbedfa39e430851ed7cc5bbcb049858fb0d61bb9ea0384c0e567713c;
  0x1993c13eaacee95399e335485174ba2bc6d70618bc8af9cb9a5812136045f793c72bfc16850edff39f21ed7415c15c9bcc03a5b16da35083a1b267f842895c8b9;
  0x11e6796c6419679399f9e1b60f290b9bc6c718ffc9a9aab39c7e0c0be7db844b9a2a89b6c8f1d7cbc9569a7583c31e43c70c2a072b626bab9cc10cc8b965a933c;
  0x13eb0c1598bf740bc3289ee2f4b84533c0b88ca529c9b4bb9670e6bbaec4f233c34ba6b7b07b001394fff9d1f5f1f24bc19ccb5b587821eb951fef3ed4f7b7f3c;
  0x197f47acb0a661e38e6884a94ae63bfbbb65641414fc594b8e939c2ea71aef53bb8f9932954a984393b7654e920cb7cbc08a0436d36ca773964aadce5433258b9;
  0x10180d8d918248e3a5eff9c62bd2d16bd2b0664cd0db4643a9496e51dcf4b47ba938b7d2eed6e34bd626244bb4191703d619b7d3e12c4cabacab3aedca3f1143d;
  0x19f505b763fe365bd857ff41de4c1e43d6c2098c818b44abad546b0369e77353da3223d063db5baba06d2f20eeae7613ccadd80681f95743a359ee918edfb93bd;
  0x19209ef5d7a6031ba383c647893f9173cef6b32b3ac8dc03a4830b541a2eeb8bd0bf60960ff0d3f3a819793c12fde26bd4f9b056d8f68843ab7ecfd8d927aadba;
  0x1fa5c6a61e4b5c63a7a6cfec714e4c1bd47b6ea0e46e8b73ab203641d51fea5ba8d825531140340bd8021c44a2f53ac3d5a848a4ac0e37dbac417e0ae75534f3d;
  0x1688176daa170ecbd61bf69af64f9af3d3635ec3fd4defabaa0d9575aaa2a2c3d6e37bfcc04cbb7ba24864e0877f61d3ce7930800fc910e3a32c4bd508223d3bc;
  0x138741c310bc8f4ba038524907340993cc9ef833af7f3ad3a037f42213c31acbcd61450bcd1637b3a5cce04ea70202cbd2a16fd605deea23a93c94161c7c4eeba;
  0x1a1de1a785552073a2b7d420a585374bcf923d484b6ada83a6315a15a822643ba3418397da1dbc4bd311a009e8e5d963d01f94ccfdeb2edba6b348d64db27e73d;
  0x1f02bf594863fcebceee9355b2e9a443cbcf09f4790682dba25e72b54968fa33cf3afbfa2df7ed1b9ccaa3dc369062a3c98fdca4d9da87239cfec8a876e83a3bc;
  0x19fecc6ea7cf2dfb990ffdef3d1e9473c5695faf64ee50539964e5fd5696c10bc5cc4d51bc0fd6739e94d7390f7d3bdbcb6b85bd6f881ef3a21361e9b2d9f7ab9;
  0x10753a3f78dbcc6399621621d91f1eebc63e952753e356f39ce26023b47f88cb99a0a8fcc82c26ebc9b16f3dd1d88703c67772587cc125bb9d1d6601eec672e3c;
  0x13573a1bec1283bbc37742c894363a93c03465fd2f93d39b96d2dbe8e03c0af3c3a3942ba9c2d17b930e27a63c3fbb93c03cb31929bd41d3934fc43979249acbc;
  0x197683ca1b30a0ab8d77662186fb7aa3ba12318ec35c54e38d5552a1ecd4d68bba329357fcafde239331b664af5f22cbc013d2e9e61e346396a1e1731928c43b9;
  0x10bb3842ded5f233a4cfe6c223d1bf0bd19206dc7f51ef13a9407af57c60917ba8276e1bd904843bd61f6a43888a7603d505edf44ecba5fbaca106df90dcd2d3d;
  0x18dd9426dc2a30dbd8502159db55f563d5a26cf2ae6c4f1bad4d5d0c065ace53da2b238a3c99538ba055945b771a04a3cd54243dad697f43a3f2101b22be03abd;
  0x191a053ff157557ba2e8f29aa4079033cf8dcb28198bc043a4d5e929500b37abd162041a6169dcb3a70b4f08cb058d2bd3d62b024899ff03ab75c262860be47ba;
  0x104dc1e108cfece3a68e6f3b7c442e5bd360c7a77f12d333ab18f15c4622466ba7ba624826b02f8bd7f86a5bbf1169e3d48a7b24eae443fbac39ca1189a2fec3d;
  0x157063bc47486d9bd61578299e82cd03d24a6879a92dab2baa074283b82d3533d6d86d768bb9ebaba2abc8da7e974733cf2a79b3528d7363a37452efc7eb91cbd;
  0x137e4f2d3a4358cba05ee3ba32e22943cd485f0e4e834f43a13e8d9064158b9bce178c1fb8e0b373a4a67b9a9b64a8abd1841d755d836153a933caf844aa1cfba;
  0x1ac471b411ca8873a19ce3b0cdd4293bce75fc2fd536c4a3a62a0e2219f3a96ba225f1050f8b052bd30b5e1eb36976b3cf0b617ed243ea1ba6a9fb8d0afd9ab3d;
  0x1dd6665a772d1e4bcee343e0bce68113caae838f06b92eeba255cbca2aa8c8e3cf33c7eca52d9eab9d5c0e0e66f6d123ca3c6a9a260a4d439e299ba85e89beabc;
  0x19f31dffaf08c1ab9952536db4c6c3e3c61df5d0bb853043999c3601ee2fceebc66c3e59c8b5d0b39d757b9e9ec00bebca51fcdafe5d5bb3a20d2d0ccd43490b9;
  0x1127571bb11a13e3984bc932ce5d787bc528346120cfb8d39cd7b50daa23cbab98868798badd0c5bc9a785bae9ff4003c55d1309e2b7f37b9d1591b27d532ce3c;
  0x123fd8ce8795413bc36eadd87f9108e3bf1ebc5931f26a9b96c7e6cd21526fe3c399fbc6d44d06db93f8658e9c604743c0f537c3258b7ab39453d4323630ee8bc;
  0x19279ad8b2470a4b8db42c17683d0fa3bab1f253697daed38e0a41de507f1cfbbae531fa4222b163921bbb4ba0eeb30bbf007307b83120e3969898cfba47890b9;
  0x1fc5c9d630046ba3a2c78bd5227bb8abcfd842632c3e7053a8facd02d373251ba65aedf944eb38bbd5c5b6c76b897143d333b0052b64784bac487167f1748253d;
  0x171f038ec5f05afbd8094ed46ccb7cc3d3eb85dd0f3d45fbad06bad3caf065b3d9d838995468254ba119ec3e77888da3cc5c4096dffa13c3a305c91bf410e6abc;
  0x18bd32b53074268ba1f5566401e60173ce97476f1cd44f53a334606db4d2706bd06a7525714787b3a53c263e0821656bd21426fadfcece43ab263e5e007ff0bba;
  0x1f55b7417d5c8413a4cbebd1508ca80bd19e68c00ad84f23aabb3c7b378799bba6024d2bed7053ebd78e22b51d73bb53d2cf6534f0892acbabef163c0d69b303d;
  0x13abcbcedc90e22bd5b6037fc051f033d084210e1df1f34ba99fca98631a01a3d674e3347ff4406ba18acebb9549dbd3ce3197b40f13d5d3a2a66c7cfde5d38bc;
  0x132dc1ceafaca3db9f7a8684d83643c3cc50338debe89d83a03c83b60c4d8adbcd1e369549d43e63a2ebe7eab95f5f6bcfc7ead23e323cf3a8e6ded55700ec4ba;
  0x19cf3b967e22a7639fde442f05d3497bccb751a056bd2883a5d660733ab88c8ba0631444a643beabd2a6112adf5e6153cd3a175b5c4014bba64f6293633ce1f3d;
  0x1c1a82889082dc5bce7d710d9cc03d73c8f9b9173a38bb7ba20e00cd686193c3cee5dd12abb3ea9b9cdf0404781529c3c943f61fa2a34f239d81c7e6c1b983fbc;
  0x1989f421b1c0962b984c4afe740f7e53c524c76bc885163398bef04cee56173bc574edd3962e60739ba4f0c1feadea3bc88d086989382133a1a85a843f83876b9;
  0x102e61f91c897c4396868f747b708e3bc35bf34da639ac739c738a9bb204eccb96ba0cd0abfa546bc94e495e60a0d593c39a0e6a3eaf8dfb9cb83412691350e3c;
  0x10679680604a94dbc3216b8da1ac0ef3bd50d3cdb30580fb96683acdc4cf19b3c34399b0414720fb92bbde76e6e5ffc3c00095b084ad220392e564cb32d2bc7bc;
  0x186e5d10486e81ab8d0a29f4bfb7ae93b9bc4b4b5c2bdb238d1ba7170083144bb9f0c3c95af2cf639051c688a24ccb4bbd2d4002b715f0439642ddc8f0cd63eb9;
  0x1db03373efb40c13a11dc94128ef6fbbcd0e677a26ac66d3a839cf3c21ad4c7ba3452e6edffbe8abd51928d751c089e3d060594e747b6b9bab98275d3d53a7e3d;
  0x1432ef809aba400bd748d07f1898e0b3d1196f1ed797940bac454218239d9973d924a0cb7a46090b9f1dbd4b4e2fa583ca4baf757e935983a14546d5d08d783bc;
  0x1813e1e27a7f6753a069045886ea7ba3cc83e774ece3d1539f283321b4aba4cbce593704e213c523a215c856b5bcea3bcf3c3c741098e9c3aa6e2f335bd9703ba;
  0x1d4575ba83188833a2000bfeb15d9acbceda8fad8aebc173aa12756ce0072f9ba3550512354e459bd6ed6fd9bc154c53d009543313546aebab32fe56bb121bc3d;
  0x10e9eaa7f5ae84fbd50f6e27cd1a29d3cdbc7772debce23ba901282f27d81063d5ce252f83d4e6939d4e57d7e4c44a53cc230e18cc6f2d439e0cbb1697cd8c5bc;
  0x1275fd057baa9a8b9ca7fc70a0b0e483ca40352f1b068bd39d1dc0fa7f14729bcb1098fc2bfbc203a061b9f4fe80f55bcd050c11a3998b43a82e048d21b50a5ba;
  0x17b9323013b76db39cbc48a60085e94bc9f7162a986ad0e3a522a8a9bedafb7b9d5a0eb99c1553ebd2058c65d32dc403ca67ae9859a8588ba59fd8af4e2d6db3d;
  0x1930ba2979f2597bcdd8bf3730d73653c62190902daffe9ba14f84e72e1da6f3ce2d1506e5b73e1b9a0e954335ae3ea3c7348cd0c39e6be398cc26438995939bc;
  0x18e841030d59c2bb96552248b58474d3c316d9dcdfa361d3966cba33eceb04fbc363302cd3a6dcf3990eb8a7a14b9a8bc5c6a9a85a718f63a107aa9ca4ef405b9;
  0x1e1fff7526a54e3393798315fe3c411bc08e74b4b4e993f39bcda1e27a6ee16b940b65d6a56597fbc89e4df17989db23c0d593987141fb8b9c0ffa7ddecaf563c;
  0x1d5a638f668079dbc266b2c76a645c93ba81b7e33819362b95bee9c961dffb43c2910f6d077b121b91a037f5d58bdfb3bde8c1d56ea9b1239060ed81f308045bb;
  0x16eb50f56e043f3b8b81bdda3ef08063b7a728890c2b37938b89d3e970261dabb7d92205c2f4d0d38d46bf6833c12c6bba58fa1605a35c13958f8c4fadae2cab8;
  0x19044d39a1ef58c39d8370f78818548bc782fbff03b47a13a6a4bd2516b15f439f29dc7015618e5bd3790d69ebb77c43caf8420eda0de1bbaa11c5662e47a093d;
  0x1e29294c747de9dbd5b8f5e8c32e9843cb92c50149c986fbaab4333651981bc3d7886eb5c5c6f9239ebdb1255cfdb893c58f873cd80a6f2b9d710e9f044b411bc;
  0x1671f9b2830686d39db0759bf44292c3c7d33ef908d0d32b9f5dfa01a21b42ebc99fd33be1e8cef39e1531800ee02c4bc9c49371ccfc9723a8ea045e3f39796b9;
  0x188807869f0b246b9caff2d4ac5de80bc9539481c2642d53a87053b9ce876edb9e9dddb956e8ce0bd54add61d0680523ca7bb88ea2595abba99bc90cd8387ce3d;
  0x18e7c71a9827199bd36c013fea099623c83e0b9e70efc1aba758e99dbb14a093d435e1fb867c1a039df94b3b28104b63c75e9661e0ccdccb9e4dabb88f2a5b3bc;
  0x10f58aa7c56ca5239b7d90d464660c03c581b3f7e51cff6b997926903339e97bc6485acbf86264839c3780266f1c99bbc77597d93c468033a695624164dc69639;
  0x1309b817d7f7da1397923f1e95a37e0bc467fdec33b58123a385eda9846985ab995679fb910e272bd05ec0affd7bf143c501605a921aef8ba416c6034d4532f3d;
  0x13b308d2199997cbcc3cfdd2eaec8a73c09e67d3822453cb9fc25bca24eb2733cc93c51467b8171b97e0cf89015f0f53c273a92d6ebb29b3981c6de6da46d81bc;
  0x174763b2130f8bcb93135337dd597333be4fe31e29b2d273926a54ac86da56bbbeabd69cb59a429b945a6f5419ac5acbc04557659804ee039f616b0fb54667639;
  0x195ae7a98332bbab8b1b4c00deaa7bdbbb1d1f254af823c39a35dd7a0420646b8eb6a01288c49cbbc715cdd384c18433bb50036295cba6fb9a6b87e8ffc463c3c;
  0x19126a4a6fc9a07bc0e10969c433e183b51401d04033c8bb942ba3435c230f23c10cec610af2fcbb8f93f9cd5fd19c43b9265d1e5d4274138f05d3b33339687bb;
  0x16eb50f56e043f2b873c9c2813771643b2fdb60a2f8ab8038897b9c6c5a0604bb31cf4270eed886b878f39cb88232f2bb4edb531da45c743940cb5b9ea2cc4938;
  0x19044d39a1ef0f739d0af61e49d8e093c782fbff03b47213a6a55be2b674a2c39c5926b6202c8f8bd3790d69ebb77c2bcaf8420eda0e0fcbaa114c99a36c59a3d;
  0x1efec563bbc46d3bd5b8f5e8c32e984bcb92c50149c9804baab645d7345fdaa3d7886eb5c5c6f91b9b0189116e6dc903c58f873cd80c3e939b79a37435cfd8bbc;
  0x1671f9b2830686db9d8d06075d2905f3c7d33ef908d003cb9b9226647b5e884bc99fd33be1e87dbb9f29e5f67b2d0113c9c49371ccfcc803a8ea0ab4c4d57ef39;
  0x188807869f0b5f4b9eac0f6a73b4add3c9539481c26430f3a8716bac3f20edcb9ce8b9991f8d190bd54add61d068051bca7bb88ea2597c2ba99babf450cad023d;
  0x1d72f94a9727519bd36c013fea09962bc83e0b9e70f005dba758e336f3e3f193d435e1fb867c1a0b9c76bec2b02ca2c3c75e9661e0cd0d4b99d79c3299a6c0fbc;
  0x10f58aa7c56ca5039b2098c738b64d03c581b3f7e51ce82399eccdc4e072b31bc6485acbf86296eb9b3ff6c8f102ca43c77597d93c468d73a69595dd978bdab39;
  0x1309b817d7f8119b97b08ea1f1489803c467fdec33b52693a3872663d4dfe813980ea35251397aabd05ec0affd7bf14bc501605a921b157ba4176df75d967ed3d;
  0x1619a264f190a02bcc3cfdd2eaec8a6bc09e67d3822479cb9fc2303548abb0f3cc93c51467b8171b965572ca7f0fcf03c273a92d6eba88fb973e88b7f2cbf14bc;
  0x174763b2130f8bb39135b446e03cdec3be4fe31e29b2fe9390706fe01a80fd7bbeabd69cb599ca3b95f0601a14d1aa33c04557659804ced39f6159a8fd0b2ce39;
  0x195ae7a9833417838e0f9f7fd0cfe4e3bb1d1f254af7d0b39a34ff2aca41ac438c8916b6d70f72dbc715cdd384c1843bbb50036295cbb1ab9a6d4770a0e839d3c;
  0x199c95a0809025cbc0e10969c433e19bb51401d040341a8b942aa1e4dfb0ad03c10cec610af2fcb38d3857a2af148d53b9265d1e5d425c638b72eeb94d68ed5bb;
  0x186e5d10486e81a388196ba15e3689d3b2fdb60a2f8a7fa3876c5eade643be4bb31cf4270eecfe5b86663685b54f6193b4edb531da451653940b8af96f804cc38;
  0x1db03373efb421bba14bc7ef5a2f7e13cd0e677a26ac6443a8398ea54c74bb73a400a19a729a036bd51928d751c089ebd060594e747b6e1bab982f7017faba03d;
  0x14055dfdebb4701bd748d07f1898e0bbd1196f1ed797989bac452c129dbeaec3d924a0cb7a4608eba030ed67949e5233ca4baf757e92abe3a0e87ee9b39470dbc;
  0x1813e1e27a7f6743a00750889528d193cc83e774ece42f13a237f81a94714d9bce593704e213d31ba2684428a9103793cf3c3c741098f1a3aa6eeb13ac1dde83a;
  0x1d4575ba83187f4ba20cfd332d140ab3ceda8fad8aebc213aa1342b8dc3312a3a34e8c77f7730dfbd6ed6fd9bc154c6bd009543313546b1bab333e01c64ac643d;
  0x10fa29c8ebc1938bd50f6e27cd1a29bbcdbc7772debce1bba900f8e65624a4b3d5ce252f83d4e69b9aed928d4931fe23cc230e18cc6f53b3a05e4f93116e514bc;
  0x1275fd057baa9a8b9d2988b17fc75843ca40352f1b0689239db10e5b2419c92bcb1098fc2bfbce3ba0517ad4086de363cd050c11a39988d3a82d22f5f997c1e3a;
  0x17b9323013b76c9b9d1bd3419f26e113c9f7162a986ad043a522d15abc3ef4c39d67377593c472dbd2058c65d32dc40bca67ae9859a8587ba5a100c8d06f0a13d;
  0x18e90821c3a8951bcdd8bf3730d7365bc62190902daffd9ba14f2016752b7733ce2d1506e5b73e1b9b2fe313f8685143c7348cd0c39e74039b9cd20031a6d66bc;
  0x18e841030d59c2db965c7e558e957663c316d9dcdfa3619396c0d785cbe30e8bc363302cd3a6da5b98b12e13a6bcb0f3c5c6a9a85a719303a10791a67ba463939;
  0x1e1fff7526a549ab93db83badb484ce3c08e74b4b4e98f539bcdbedd20b7f193941df66ffecefb5bc89e4df17989db1bc0d593987141fdbb9c0f9aec3d834e13c;
  0x1d718a8d6903e99bc266b2c76a645c8bba81b7e338193d3b95bf365c03f71933c2910f6d077b121b904750f6ce9537b3bde8c1d56ea9a5d39140eb288e4629cbb;
  0x19279ad8b2470a5b89d605e78523ed53b7a728890c2b292389163e62970603abb7d92205c2f4d59b8d7d8e668e16e683ba58fa1605a35303958face239b2a5138;
  0x1fc5c9d630046b7ba33c3ba73d3f8e23cfd842632c3e7233a8faf4b5a5ec54d3a656cd4cbd5c2f0bd5c5b6c76b89710bd333b0052b6478dbac494cae260b14d3d;
  0x17067386b427523bd8094ed46ccb7ccbd3eb85dd0f3d44ebad06d58f9e5d83f3d9d838995468254ba1160da860e8dc13cc5c4096dffa1443a306c0c179b8d2fbc;
  0x18bd32b53074268ba1afe7caa52da8e3ce97476f1cd45163a3ec0d1d5a9c9d6bd06a75257147846ba54b3dd9a7f77893d21426fadfcecde3ab27c661ceb74c13a;
  0x1f55b7417d5c858ba4c08baa50582d43d19e68c00ad84ec3aabb3dd8faefee13a60dcec37eeae96bd78e22b51d73bb4bd2cf6534f0892b2babf0d7fdfa3fc4e3d;
  0x13ba76946e321febd5b6037fc051f01bd084210e1df1f2eba99ddd971a250d03d674e3347ff4406ba15fd176a10d6683ce3197b40f13ce83a2769eb0ec98563bc;
  0x132dc1ceafaca3cb9f2fc6cf3cd6a273cc50338debe893d3a031614378651d7bcd1e369549d438aba2e6d38646e8fbd3cfc7ead23e323c93a8e811b7ad948293a;
  0x19cf3b967e22ad9b9fedc2f8a78557f3ccb751a056bd2853a5d674e0b910e4d3a06320ac451a086bd2a6112adf5e615bcd3a175b5c4014aba65051d632069fe3d;
  0x1c10afa1981d255bce7d710d9cc03d5bc8f9b9173a38bc0ba20f09a6c5d4b553cee5dd12abb3eaab9c4f8f46eb9110e3c943f61fa2a35b839d2d964cce49425bc;
  0x1989f421b1c0962b977a1677fb1856c3c524c76bc88515e3986980a298c2c8fbc574edd3962e631b9bbd5a37890f26e3c88d086989382123a1a766accc9c60539;
  0x102e61f91c8984db9685f012f53e3f53c35bf34da639ac239c74f6ef26fd51f396bd7ce6afd69c9bc94e495e60a0d59bc39a0e6a3eaf8deb9cb824d660f940b3c;
  0x10685d736b6d7d0bc3216b8da1ac0eebbd50d3cdb30580eb9668809dfd46c693c34399b04147210b9366fe03e2598cb3c00095b084ad2903934adc046fa0f0bbc;
  0x197683ca1b30a0ab8cee547b594e7da3b9bc4b4b5c2bdc538d3ba522cdb7b55bb9f0c3c95af2cceb904c2035d15c5103bd2d4002b715f10396423d04673eb9a39;
  0x10bb3842ded5f20ba4dbfd39018b57c3d19206dc7f51ef03a93f7b8115b1acf3a8243fca2647b4fbd61f6a43888a760bd505edf44ecba5fbaca19b3a0a9ce973d;
  0x18cf53c40803ef2bd8502159db55f55bd5a26cf2ae6c4ecbad4d1aa796fdf723da2b238a3c99538ba057aba547aa2993cd54243dad697f33a3f1cd31e8abfecbd;
  0x191a053ff157558ba3425385cc8439c3cf8dcb28198bc9e3a474c6169dadf48bd162041a6169d93ba6f84eab36f89473d3d62b02489a0123ab75e31c69aacd23a;
  0x104dc1e108cfeabba68ba4c004c15163d360c7a77f12d2b3ab1881816bb37563a7becfaab88b208bd7f86a5bbf1169ebd48a7b24eae443bbac3a3281443bff93d;
  0x15715311190bd5dbd61578299e82cd1bd24a6879a92dab0baa06eef7db235b53d6d86d768bb9ebaba286b20d1604c8c3cf2a79b3528d7483a3b760a3ddcd017bd;
  0x137e4f2d3a4358eba027283b8af01773cd485f0e4e834cc3a11681b02f6cb3ebce178c1fb8e0b42ba4ad1a24e8f213f3d1841d755d836153a9349404ce8221b3a;
  0x1ac471b411ca856ba1aa9017d77afbb3ce75fc2fd536c493a62a2731ba069c23a22b6233876bbbfbd30b5e1eb36976bbcf0b617ed243ea4ba6a859912b542423d;
  0x1ddb0f0cf83b487bcee343e0bce680fbcaae838f06b92edba257ba79f278bbf3cf33c7eca52d9ebb9d52f672148d1c83ca3c6a9a260a53039d565c18007a8bebc;
  0x19f31dffaf08c1ab997b620a3cba5f83c61df5d0bb85328399c331984744207bc66c3e59c8b5cf1b9d70d2ec1db1e1e3ca51fcdafe5d5bf3a20d89527a903ab39;
  0x1127571bb11a16db984d73da4f1aa383c528346120cfb8f39cd731ed14351c239885d930661b5f9bc9a785bae9ff400bc55d1309e2b7f3cb9d157c8d112c1163c;
  0x1241343139b9a9ebc36eadd87f9108dbbf1ebc5931f26a7b96c811ab8525fc13c399fbc6d44d06db9420ffbc2eb55683c0f537c3258b7073946e1708548b2dcbc;
  0x197f47acb0a661db8e2057428c8b14d3bab1f253697db3a38e4356b29842143bbae531fa4222ad5b9220a0b4e85ee8a3bf007307b83120e39698375ebf6631839;
  0x10180d8d9182433ba5e2d27cf303e523d2b0664cd0db4613a947ec37dd98aa33a9398a478263d20bd626244bb41916ebd619b7d3e12c4cabacaabc8f26cb3b63d;
  0x19f5c85404149d5bd857ff41de4c1e5bd6c2098c818b44abad554a89a32a27b3da3223d063db5bab9fbc65938d9b4403ccadd80681f92e63a36bce1c73dbca8bd;
  0x19209ef5d7a6032ba204471aae6946a3cef6b32b3ac8b163a3b0fc0db1d061abd0bf60960ff0d95ba817f402d2d11463d4f9b056d8f68843ab7fff3a9d860a03a;
  0x1fa5c6a61e4b650ba7a832a942222ee3d47b6ea0e46e8b73ab1f58e0a3bd5d43a8db59dae0adeb6bd8021c44a2f53acbd5a848a4ac0e380bac41ecbb80067b93d;
  0x168f5168e0c9b74bd61bf69af64f9afbd3635ec3fd4defebaa0cd2796dbb4c13d6e37bfcc04cbb7ba16cb7132b5ded73ce7930800fc90a73a2360c4893bb273bc;
  0x138741c310bc8f4b9fa759d17eba9233cc9ef833af7f2b53a09c99825b99cd4bcd61450bcd1632eba5d1860d180a3973d2a16fd605deea23a93b5f8708cd9fd3a;
  0x1a1de1a785551c1ba2bffba3d75a7fe3cf923d484b6ada73a63027a68ea75ff3a340116b407e437bd311a009e8e5d96bd01f94ccfdeb2efba6b42712c7441d43d;
  0x1f020e6d7df6e19bceee9355b2e9a44bcbcf09f4790682cba25e1a5fb39bcc23cf3afbfa2df7ed1b9d07665a5481b133c98fdca4d9da8c139d4d9367e4172cbbc;
  0x19fecc6ea7cf2dfb97e2cc910da36f23c5695faf64ee48a3984a534a3c5500fbc5cc4d51bc0fd78b9e9301cc4fdf20e3cb6b85bd6f881ef3a2127cf24818c6439;
  0x10753a3f78dbcf3b9960cc907fab46e3c63e952753e356d39ce2838a62d8cda399a51d592eff37fbc9b16f3dd1d8870bc67772587cc125eb9d1b7d08916daa83c;
  0x13559cf2b28d9c7bc37742c894363aabc03465fd2f93d3bb96d233347f9f42a3c3a3942ba9c2d17b92e35a98690ba333c03cb31929bd4313936c3e9380de894bc;
  0x192ef5921b0553db8ce004958d53c033ba12318ec35c4da38c881b71f0fdfb5bba329357fcafde9b9331223c697abb43c013d2e9e61e346396a14890c8c68cc39;
  0x116d0735f24eb09ba658c6298feb1f63d334d7d085a64cb3a90188595aea2b43a9bfe7a5b80cf4cbd5d1008259887a9bd6926fb58076481bac5170d54e66fe13d;
  0x1a66f8a20a2d320bd80fe8975269a16bd74170d9058ac3ebad0d54f7a18b3163d9e3f833b4656833a0d9b2b041b3d74bce18227de986552ba472048a4db64113d;
  0x18c846331f047163a3ed57870e75e94bd0479dae38b94eeba5522c0fb178aab3d2238fbe8a1eb3dba8907d2ec2bd00d3d56930abaf3e1783ab2f8092a1fea843a;
  0x1112e075a535e5aba82f6947e99a3a23d50f02c4d0594d33aac593c20a72d823a951b7052d8bc82bd7980a74a586e70bd62f0bd727e95abbabfc737d99933e73d;
  0x1719682da052577bd5c0e93ba869958bd3fba620b3b4786ba9a90b18b1682c53d67e2a259dc37b13a30122b2ed75cb7bcfeba36d00fba24ba42738b8ac7cdff3d;
  0x133543b71c6fd593a12da14cae3eacabce0e70e2724a89eba20d5f7bd0533303cecc75f583e07b5ba64bc4ceb8a0fea3d32a27e432210cd3a8f495fcb128f2c3a;
  0x1b74a00dc79fe9bba33fb006d10f30c3d01f4d0c8d056f73a5e291aa4efd34b3a3c8f8304a207a1bd2b091562d45868bd09acfdc35cbf73ba65821a3eec5bd93d;
  0x1f704b3b0e89491bce86ee79fefd384bcc4aba2c95dd5fbba2151d2eb5e312c3cef1f390cfbedf739e1c684e15990f1bcb049858fb0d62eb9e71168719b1b213c;
  0x1993c13eaacee9539a252e86ba4d477bc6d70618bc8b00fb9a6361a1ed394b73c72bfc16850ee06b9f1f519976342c43cc03a5b16da35083a1b2b09dcb479e939;
  0x11e6796c6419697b99faa71935f3ba73c6c718ffc9a9aad39c7d94427fdc88739a29f578cce8d0dbc9569a7583c31e4bc70c2a072b626bab9cc27c502c9712e3c;
  0x13eb82f97055d81bc3289ee2f4b8454bc0b88ca529c9b4cb9670a436e75d35c3c34ba6b7b07b001394d67103a82e15bbc19ccb5b5878235b9515bbe4958bec93c;
  0x185597ff4213b6838e6e926cd934c84bbb65641414fc58eb8eb4dc91cbe04483bb8f9932954a964b93b4073098df0a63c08a0436d36ca7a3964aa1b6ce34ba339;
  0x12ec9c818fa3640ba639d517bd7f2673d31b4afeacbe8a03a822ce29b11df3b3a99976b313d85b9bd506267f031a156bd67124b9fbf030abab7d0d4dfbb69073d;
  0x1a4902c32816c66bd73295559aa7d45bd726d939efe917fbac2f4aa98a40a833d910d7f34f6462d3a309407f90e9b8abcf7a0bdaae86591ba6121c678145c143d;
  0x18013ae0b24715b3a4efc2534058629bd1ba1f79d335436ba6ae6482753ff5d3d38977877a89a3dba87202e61787bd63d54b4f385709e783aa55e16bfebd7f43a;
  0x1272f35cb335721ba8169ad5f1fd2c23d4f12e5aa4d5fb93aa003fa90acab943a9364bd2398a639bd6cc1361b7dafbfbd615f9c9983ebd4bab1ea4cbb5c0e323d;
  0x170332ea2fdbfdebd4fa286931a5215bd3d1a6e7ab66354ba8df3b3ac65171e3d5aee6511ab4aba3a47923c5a41490ebd14bbca78ba9323ba5a18116f6a4e2c3d;
  0x125cb3fbb9794e63a291299b01d15ffbcf6cf6e2af004b0ba358867c4d572853d036b3188ecc62cba62f7c8ce1bf5143d3117d68fcec9153a81a78fdd3457c53a;
  0x1cf6dd1a5ccd39dba324cbe084363163d0078874f2020d93a50f751bbeaba173a3a377a363a4f84bd1e7baf7fa2b6aabd078d37edf203e7ba5838fe6bd1fed53d;
  0x1f523a7de3d3237bcdb8c8da012550cbcc2f5de163533a9ba139e109381cf7a3ce18b9dbecf559e39f8eca264fac0c0bcc5fad6168b2193ba01a9c22214c3973c;
  0x18c73e40206fedd39b56918b27178e4bc83dd3bc017723cb9bc31d6b14c26673c894d58cac38e71b9f0842f29913dbe3cbdc55875c8942d3a0eaf5e2b4f6cd239;
  0x1348409f6eb6341b99d0e1a767092f43c6a172bb4d8d5a739baee272ee453de39a11c52b7f37884bc8824b1be3de0a4bc6ebf5729230b5eb9bfa94453036c783c;
  0x13c0f3c65feb7eebc24e7261dccd951bc0941a7cc2e63b0b95a02f409228a1f3c275f1d2f322e1039628e249a09e4c6bc316894ade2ddf4b966682cd1c9a3903c;
  0x16ef941816987603900f657b6fd5324bbce24e0617a23b5b90312a909fefc123bd0da1da3c96e95b9391927038604b73c0696b8d5e9c0ac395738f804adc0ed39;
  0x12e862622302517ba557f798c02df073d2343759acdf38c3a6aae94bda4ed663a8bf025c45ab6b6bd37c52c98aa277dbd5919e9dea5d87ebaa13c2c10f0f6663d;
  0x1966211359f4741bd5bcc936724b84dbd640c9d68ee651dbaab85dd3c31ea403d78bd63d80dd5fd3a2a5b991d15bd12bcf76cd65b585a10ba60eecb9c29c46f3d;
  0x16752f5a99154873a4e2a20652f37b7bd1b65442e75539dba6b497341e394b03d38617329f037e8ba792a3196489a483d46875023663f4b3a8ee373771688943a;
  0x126fc47e073297fba72cf29466e8bfe3d40e75f5fc16a423a872f020cc9a0483a8505bd78ec8cf7bd54dbc2e23376cdbd52e6e6354c727dba9a01047140b1eb3d;
  0x161a6aef9d970c7bd36f29a58f8f9a5bd2fa9e5eea51844ba75c698c08507bb3d438922ed2b4b753a4764d056c08b72bd148e3ecf8cc4ccba598991e4f9bc903d;
  0x10f9e47feb1c3213a292e02700a885cbcf69d52a69e4a48ba3589aaec5fd9773d03408947a49ffeba54b47ce9e4eacc3d2298cfad743c053a697be4c124eafc3a;
  0x1cf28c7577d6c60ba23fbee9363be293cf1eb7c6fcb43a03a3894e2ba0f2c1b3a2c983b389c845cbd061cba74b6e950bcf99fa6a98acfb2ba418fdf77986ae43d;
  0x1e6e4c3d3b9eef1bcc3fbdcfcb517d1bcb4a0e56f1d65bab9fc5e9e91ff88683cc9745c9d6964c339f85626ab26a68abcc5ca8d93f99db5ba010e06bdc0d3d43c;
  0x174a3ac68ba53e939b68360e2dec277bc83b198fbace7ceb9bc0208b65c1b9a3c8915c3f5a85e92b9e202abfbd631b43cb031eca0e1c59f39f639f2fce5caf539;
  0x13456f8c64153b6b98f90506e79efcd3c5c62c8bc90ccc739a3705e9376efe03992a09bf754252cbc71836c8ebbf37ebc60b9eb2f814245b9a6eeb9023014a43c;
  0x12ea1da4fc63f09bc0e535b82e13e4dbbfb7a7c0351c68cb942dd4c99388bc33c10f419d7ad537b396319d92cb33c7bbc314256e0a65357b966a873b55927783c;
  0x139008ce0e8bc04b2bbcde2a8aa3e675ab902acee189fc73b3bd0b518cabbe911b92b567f323190ee3bf89377f292770c3940d902135d459039]%positive.

(** bimaxwellian-mapc2p-vel.gkyl, 4205 bytes. *)
Definition bimax_mapc2p_vel : list Z := file [
  0x10000000000000000000008000000000000001000000000000000020000000000000002000000000000000000000000000000010000000000000001306c796b67;
  0x19cb138412efaf8b9219debc16943c3cde3227a000000000000008000000000000000203ff00000000000003ff00000000000000000000000000000bff0000000;
  0x13f4ffe412efaf8b9219debc16943c3cde3227a3c454ae1b178f0df3c5ebbab7fc3dd85412efaf8b9219debc16943c3cde3227a3c2c63d7974bebd63c389622cc;
  0x128c311412efaf8b9219debc16943c3cde3227a3c58d75ca4626e5c3c83354b2fda6a74412efaf8b9219debc16943c3cde3227a3c51be66be8f73653c73f9fc46;
  0x1e00daf412efaf8b9219debc16943c3cde3227a3c6384a4380432203c976f192b0558ea412efaf8b9219debc16943c3cde3227a3c5ff0528a3569523c8f805c96;
  0x19cb138412ad9823a0c1165c1630122031554d63c6a9d9a1dd72d173ca5b48ab8a25474412efaf8b9219debc16943c3cde3227a3c67111f2aedaf9f3ca053b31b;
  0x13f4ffe412ad9823a0c1165c1630122031554d63c454ae1b178f0df3c5ebbab7fc3dd85412ad9823a0c1165c1630122031554d63c2c63d7974bebd63c389622cc;
  0x128c311412ad9823a0c1165c1630122031554d63c58d75ca4626e5c3c83354b2fda6a74412ad9823a0c1165c1630122031554d63c51be66be8f73653c73f9fc46;
  0x1e00daf412ad9823a0c1165c1630122031554d63c6384a4380432203c976f192b0558ea412ad9823a0c1165c1630122031554d63c5ff0528a3569523c8f805c96;
  0x19cb1384126b80bbaf684e0c15b46e585ee6db83c6a9d9a1dd72d173ca5b48ab8a25474412ad9823a0c1165c1630122031554d63c67111f2aedaf9f3ca053b31b;
  0x13f4ffe4126b80bbaf684e0c15b46e585ee6db83c454ae1b178f0df3c5ebbab7fc3dd854126b80bbaf684e0c15b46e585ee6db83c2c63d7974bebd63c389622cc;
  0x128c3114126b80bbaf684e0c15b46e585ee6db83c58d75ca4626e5c3c83354b2fda6a744126b80bbaf684e0c15b46e585ee6db83c51be66be8f73653c73f9fc46;
  0x1e00daf4126b80bbaf684e0c15b46e585ee6db83c6384a4380432203c976f192b0558ea4126b80bbaf684e0c15b46e585ee6db83c5ff0528a3569523c8f805c96;
  0x19cb138412296953be0f85ac152556c1b1191173c6a9d9a1dd72d173ca5b48ab8a254744126b80bbaf684e0c15b46e585ee6db83c67111f2aedaf9f3ca053b31b;
  0x13f4ffe412296953be0f85ac152556c1b1191173c454ae1b178f0df3c5ebbab7fc3dd85412296953be0f85ac152556c1b1191173c2c63d7974bebd63c389622cc;
  0x128c311412296953be0f85ac152556c1b1191173c58d75ca4626e5c3c83354b2fda6a74412296953be0f85ac152556c1b1191173c51be66be8f73653c73f9fc46;
  0x1e00daf412296953be0f85ac152556c1b1191173c6384a4380432203c976f192b0558ea412296953be0f85ac152556c1b1191173c5ff0528a3569523c8f805c96;
  0x19cb138411cea3d7996d7a8c1465baf8b2827933c6a9d9a1dd72d173ca5b48ab8a25474412296953be0f85ac152556c1b1191173c67111f2aedaf9f3ca053b31b;
  0x13f4ffe411cea3d7996d7a8c1465baf8b2827933c454ae1b178f0df3c5ebbab7fc3dd85411cea3d7996d7a8c1465baf8b2827933c2c63d7974bebd63c389622cc;
  0x128c311411cea3d7996d7a8c1465baf8b2827933c58d75ca4626e5c3c83354b2fda6a74411cea3d7996d7a8c1465baf8b2827933c51be66be8f73653c73f9fc46;
  0x1e00daf411cea3d7996d7a8c1465baf8b2827933c6384a4380432203c976f192b0558ea411cea3d7996d7a8c1465baf8b2827933c5ff0528a3569523c8f805c96;
  0x19cb1384114a7507b6bbe9dc13740a215d7d73c3c6a9d9a1dd72d173ca5b48ab8a25474411cea3d7996d7a8c1465baf8b2827933c67111f2aedaf9f3ca053b31b;
  0x13f4ffe4114a7507b6bbe9dc13740a215d7d73c3c454ae1b178f0df3c5ebbab7fc3dd854114a7507b6bbe9dc13740a215d7d73c3c2c63d7974bebd63c389622cc;
  0x128c3114114a7507b6bbe9dc13740a215d7d73c3c58d75ca4626e5c3c83354b2fda6a744114a7507b6bbe9dc13740a215d7d73c3c51be66be8f73653c73f9fc46;
  0x1e00daf4114a7507b6bbe9dc13740a215d7d73c3c6384a4380432203c976f192b0558ea4114a7507b6bbe9dc13740a215d7d73c3c5ff0528a3569523c8f805c96;
  0x19cb1384108c8c6fa814b22c121e2f2d5b9b9423c6a9d9a1dd72d173ca5b48ab8a254744114a7507b6bbe9dc13740a215d7d73c3c67111f2aedaf9f3ca053b31b;
  0x13f4ffe4108c8c6fa814b22c121e2f2d5b9b9423c454ae1b178f0df3c5ebbab7fc3dd854108c8c6fa814b22c121e2f2d5b9b9423c2c63d7974bebd63c389622cc;
  0x128c3114108c8c6fa814b22c121e2f2d5b9b9423c58d75ca4626e5c3c83354b2fda6a744108c8c6fa814b22c121e2f2d5b9b9423c51be66be8f73653c73f9fc46;
  0x1e00daf4108c8c6fa814b22c121e2f2d5b9b9423c6384a4380432203c976f192b0558ea4108c8c6fa814b22c121e2f2d5b9b9423c5ff0528a3569523c8f805c96;
  0x19cb13840f085d9fc563217c0fc9e5155f5f5363c6a9d9a1dd72d173ca5b48ab8a254744108c8c6fa814b22c121e2f2d5b9b9423c67111f2aedaf9f3ca053b31b;
  0x13f4ffe40f085d9fc563217c0fc9e5155f5f5363c454ae1b178f0df3c5ebbab7fc3dd8540f085d9fc563217c0fc9e5155f5f5363c2c63d7974bebd63c389622cc;
  0x128c31140f085d9fc563217c0fc9e5155f5f5363c58d75ca4626e5c3c83354b2fda6a7440f085d9fc563217c0fc9e5155f5f5363c51be66be8f73653c73f9fc46;
  0x1e00daf40f085d9fc563217c0fc9e5155f5f5363c6384a4380432203c976f192b0558ea40f085d9fc563217c0fc9e5155f5f5363c5ff0528a3569523c8f805c96;
  0x19cb13840f085d9fc56321740fc9e5155f5f5363c6a9d9a1dd72d173ca5b48ab8a2547440f085d9fc563217c0fc9e5155f5f5363c67111f2aedaf9f3ca053b31b;
  0x13f4ffe40f085d9fc56321740fc9e5155f5f5363c454ae1b178f0df3c5ebbab7fc3dd8540f085d9fc56321740fc9e5155f5f5363c2c63d7974bebd63c389622cc;
  0x128c31140f085d9fc56321740fc9e5155f5f5363c58d75ca4626e5c3c83354b2fda6a7440f085d9fc56321740fc9e5155f5f5363c51be66be8f73653c73f9fc46;
  0x1e00daf40f085d9fc56321740fc9e5155f5f5363c6384a4380432203c976f192b0558ea40f085d9fc56321740fc9e5155f5f5363c5ff0528a3569523c8f805c96;
  0x19cb1384108c8c6fa814b224121e2f2d5b9b9423c6a9d9a1dd72d173ca5b48ab8a2547440f085d9fc56321740fc9e5155f5f5363c67111f2aedaf9f3ca053b31b;
  0x13f4ffe4108c8c6fa814b224121e2f2d5b9b9423c454ae1b178f0df3c5ebbab7fc3dd854108c8c6fa814b224121e2f2d5b9b9423c2c63d7974bebd63c389622cc;
  0x128c3114108c8c6fa814b224121e2f2d5b9b9423c58d75ca4626e5c3c83354b2fda6a744108c8c6fa814b224121e2f2d5b9b9423c51be66be8f73653c73f9fc46;
  0x1e00daf4108c8c6fa814b224121e2f2d5b9b9423c6384a4380432203c976f192b0558ea4108c8c6fa814b224121e2f2d5b9b9423c5ff0528a3569523c8f805c96;
  0x19cb1384114a7507b6bbe9d413740a215d7d73c3c6a9d9a1dd72d173ca5b48ab8a254744108c8c6fa814b224121e2f2d5b9b9423c67111f2aedaf9f3ca053b31b;
  0x13f4ffe4114a7507b6bbe9d413740a215d7d73c3c454ae1b178f0df3c5ebbab7fc3dd854114a7507b6bbe9d413740a215d7d73c3c2c63d7974bebd63c389622cc;
  0x128c3114114a7507b6bbe9d413740a215d7d73c3c58d75ca4626e5c3c83354b2fda6a744114a7507b6bbe9d413740a215d7d73c3c51be66be8f73653c73f9fc46;
  0x1e00daf4114a7507b6bbe9d413740a215d7d73c3c6384a4380432203c976f192b0558ea4114a7507b6bbe9d413740a215d7d73c3c5ff0528a3569523c8f805c96;
  0x19cb138411cea3d7996d7a841465baf8b2827923c6a9d9a1dd72d173ca5b48ab8a254744114a7507b6bbe9d413740a215d7d73c3c67111f2aedaf9f3ca053b31b;
  0x13f4ffe411cea3d7996d7a841465baf8b2827923c454ae1b178f0df3c5ebbab7fc3dd85411cea3d7996d7a841465baf8b2827923c2c63d7974bebd63c389622cc;
  0x128c311411cea3d7996d7a841465baf8b2827923c58d75ca4626e5c3c83354b2fda6a74411cea3d7996d7a841465baf8b2827923c51be66be8f73653c73f9fc46;
  0x1e00daf411cea3d7996d7a841465baf8b2827923c6384a4380432203c976f192b0558ea411cea3d7996d7a841465baf8b2827923c5ff0528a3569523c8f805c96;
  0x19cb138412296953be0f85a4152556c1b1191173c6a9d9a1dd72d173ca5b48ab8a25474411cea3d7996d7a841465baf8b2827923c67111f2aedaf9f3ca053b31b;
  0x13f4ffe412296953be0f85a4152556c1b1191173c454ae1b178f0df3c5ebbab7fc3dd85412296953be0f85a4152556c1b1191173c2c63d7974bebd63c389622cc;
  0x128c311412296953be0f85a4152556c1b1191173c58d75ca4626e5c3c83354b2fda6a74412296953be0f85a4152556c1b1191173c51be66be8f73653c73f9fc46;
  0x1e00daf412296953be0f85a4152556c1b1191173c6384a4380432203c976f192b0558ea412296953be0f85a4152556c1b1191173c5ff0528a3569523c8f805c96;
  0x19cb1384126b80bbaf684e0415b46e585ee6db83c6a9d9a1dd72d173ca5b48ab8a25474412296953be0f85a4152556c1b1191173c67111f2aedaf9f3ca053b31b;
  0x13f4ffe4126b80bbaf684e0415b46e585ee6db83c454ae1b178f0df3c5ebbab7fc3dd854126b80bbaf684e0415b46e585ee6db83c2c63d7974bebd63c389622cc;
  0x128c3114126b80bbaf684e0415b46e585ee6db83c58d75ca4626e5c3c83354b2fda6a744126b80bbaf684e0415b46e585ee6db83c51be66be8f73653c73f9fc46;
  0x1e00daf4126b80bbaf684e0415b46e585ee6db83c6384a4380432203c976f192b0558ea4126b80bbaf684e0415b46e585ee6db83c5ff0528a3569523c8f805c96;
  0x19cb138412ad9823a0c116541630122031554d53c6a9d9a1dd72d173ca5b48ab8a254744126b80bbaf684e0415b46e585ee6db83c67111f2aedaf9f3ca053b31b;
  0x13f4ffe412ad9823a0c116541630122031554d53c454ae1b178f0df3c5ebbab7fc3dd85412ad9823a0c116541630122031554d53c2c63d7974bebd63c389622cc;
  0x128c311412ad9823a0c116541630122031554d53c58d75ca4626e5c3c83354b2fda6a74412ad9823a0c116541630122031554d53c51be66be8f73653c73f9fc46;
  0x1e00daf412ad9823a0c116541630122031554d53c6384a4380432203c976f192b0558ea412ad9823a0c116541630122031554d53c5ff0528a3569523c8f805c96;
  0x19cb138412efaf8b9219deb416943c3cde3227a3c6a9d9a1dd72d173ca5b48ab8a25474412ad9823a0c116541630122031554d53c67111f2aedaf9f3ca053b31b;
  0x13f4ffe412efaf8b9219deb416943c3cde3227a3c454ae1b178f0df3c5ebbab7fc3dd85412efaf8b9219deb416943c3cde3227a3c2c63d7974bebd63c389622cc;
  0x128c311412efaf8b9219deb416943c3cde3227a3c58d75ca4626e5c3c83354b2fda6a74412efaf8b9219deb416943c3cde3227a3c51be66be8f73653c73f9fc46;
  0x1e00daf412efaf8b9219deb416943c3cde3227a3c6384a4380432203c976f192b0558ea412efaf8b9219deb416943c3cde3227a3c5ff0528a3569523c8f805c96;
  0x13c6a9d9a1dd72d173ca5b48ab8a25474412efaf8b9219deb416943c3cde3227a3c67111f2aedaf9f3ca053b31b]%positive.

(** twostream-f-p2.gkyl, 131236 bytes. *)
Definition twostream_f : list Z := file [
  0x162a902726564724f796c6f70a900656d617266a50000000000000000cb656d6974a484000000000000003700000000000000010000000000000001306c796b67;
  0x100000000c01921fb54442d1800000000000000200000000000000040000000000000000200000000000000027974697069646e65726573ab6570795473697361;
  0x1189c392b275ab02f42b1e4ce257db1ed8d44624e2753e468f6c4a346000000000000080000000000000000404018000000000000401921fb54442d18c0180000;
  0x1e353b2512b241604cd01decd2946595789821b662b1df14545468b86257a8f5eb4e1c95525648f2d35f809fd2751caca186e9408255ea5e16e9799ae2583eb87;
  0x12d9501ca2e9cc346fc673fb42cc0006e5524d3de2e957044704e983e2943fd524d4ec946292ef25037c513752b1ac805f102ef85292710f1d212dc36294dfbfb;
  0x189a522f731c39779b019ac462fe5cc8ecfd2709731bd34a72ed94f242cbc9fe7aca80e4e2ca6284e48f4405f2e932cd8b4d5dbbf2ca083e3e29264aa2cc577ef;
  0x10080b76f3499640bf77440a932bc4075a819c68e3492ece8bbaa4c4b2fe37f5de6948bdc2fce2f599b38eab931ba1f4616ffc5742fc67fa4f60f7b4b2fed3f14;
  0x17297b4a8371f4e1770cffed035416ab68ece1593371755a43324500a32b944ba3405bb7632a38f503219cb933490ed4c0be0e13f329d288e1b159de432c2f39f;
  0x1530a7a9439525bf9a3ab427737746e7c61f62d3e394b5fa349dcf493353f271dd4bda54035281da91d55679e3714de673a46da903521f9cc2c9db5b135475db3;
  0x1b364a9d23b347c74033d02ef3956cfa278992c3d3b2e8fc18023e7f63772444b1c29ea4f375c4941ed793cca39487925fdaf441f37551656565292b7377b681a;
  0x17699dcc23cc5bf35a995ac423ae84458684f5db63cc0418d004b1a7939545e705d92a747393f9022fa27e17e3b2b4a23762c7f1d39378b08f16a267b395e94e5;
  0x199d19e9c3e05f61554d8f95b3c28b658f4f607ec3e008deb3c102bfc3ae5907ec4cee6113ad0c0b3eda30b4d3cbce42ebfb27ab03ac90bb48b8c4d033af03b5a;
  0x1dd1846e63ef517199c5f63c93d1885064199bfdf3ef06ce0dc4b46303c258c994e8cf4e33c10eaf9c17a4e003dfcdef67309dbb33c09815e2e3bcb0d3c30644f;
  0x11e64eb903f9327603e34a66e3db949036051ac0f3f90f02b05229cef3d13da7ca4611b983d003f332bb4fc2d3eea995a6d6772b33cf94e75d6cc0cf53d1f7bc0;
  0x19793cfbd3fde11bbfae1f8ca3e108a4402053cd43fe628ef061fb2353dae694c93275c823d9d82a32631204b3f845f3f52a7f5bc3d9a18bd3607a9da3dbc97bd;
  0x1b8348443bfcfde3389986b0c3e2403fa7f9294f93ffad0f143700f693de1c6b8393cfbd43de729f430c9369d3fb7d0e8acf8a1eb3df11225afc0c9653e067192;
  0x191c97922bfcf593139f7e1de3dfab2fdad303c9d3fd1e2a6ae7acc2bbdf31c5070d2110abdd88caca762995ebfc99a9132c0e62a3e04a86970d7d465bdf7c943;
  0x150c4153cbf673cf8292ef52f3d8cd7b762b8ef963f63523bbc24f0223de09aafebb436f0bdd82636125508c93fb63eef45d0951b3ddb8e555b84036cbdf765fc;
  0x151ee31e13f673cf8292ef52f3d8cd7b765a8fdeb3f63523bbc24f0223d841baf36ef5624bd71e6cad782fc603f5af0b3fa692a283d6dc4aae2be127ebd91584c;
  0x18c4f26df3fcf593139f7e1de3dfab2fdb72ac59f3fd1e2a6ae7acc2a3d841baf3f718f063d71e6cae57f039c3f5af0b3fa692a283d6dc4ab20b7b3f23d91584c;
  0x1a73bec803fcfde3389986b0c3e2403fa71f4cbe83ffad0f143700f693de09aafe27936fa3dd826363b2177653fb63eef45d0951a3ddb8e5506061b933df765fc;
  0x191e9b1c0bfde11bbfae1f8ca3e108a44047e09fa3fe628ef061fb236bdf31c50a3104dff3dd88cad046d4208bfc99a9132c0e62b3e04a86952a9dec13df7c943;
  0x11eaa72e9bf9327603e34a66e3db94903595139623f90f02b05229cef3de1c6b87964e3fbbde729f420dcff0c3fb7d0e8acf8a1ea3df11225bdced896be067192;
  0x1eab799e7bef517199c5f63ca3d18850647db886d3ef06ce0dc4b46303dae694c966c68babd9d82a310b828bb3f845f3f52a7f5bc3d9a18bd2ad74b71bdbc97bd;
  0x1ae6bb61cbe05f61554d8f95b3c28b658fba63fb63e008deb3c102bfb3d13da7c8d419864bd003f33332cd23d3eea995a6d6772b33cf94e76346c0e69bd1f7bc0;
  0x17dd00f60bcc5bf35a995ac423ae844586d068ecf3cc0418d004b1a7a3c258c993cfd4f1dbc10eaf9adbf5bfe3dfcdef67309dbb43c09815dd6294ea5bc30644f;
  0x1b24b0079bb347c74033d02ef3956cfa27a5edad73b2e8fc18023e7f63ae5907ec1f3bd04bad0c0b3f6338d6f3cbce42ebfb27ab13ac90bb483033641baf03b5a;
  0x147e353d6b9525bf9a3ab427837746e7c6947e283394b5fa349dcf49439545e705e1e1b9db93f9022a1e3727d3b2b4a23762c7f1d39378b08f63616e7b95e94e5;
  0x15ad3b65ab71f4e1770cffed035416ab69c215cbc371755a43324500a3772444b235bef2ab75c4941cfbb801639487925fdaf441f375516565f304bbab77b681a;
  0x1e8f58036b499640bf77440a932bc4075a8bb39343492ece8bbaa4c4a353f271de90d9313b5281da9134ac1773714de673a46da903521f9cc3026fe1bb5475db3;
  0x18f4bd5c6b1c39779b019ac462fe5cc8ed360f24d31bd34a72ed94f2432b944ba26a1644cb2a38f501dfbe2fb3490ed4c0be0e140329d288e076f3ebab2c2f39e;
  0x1301eedd9ae9cc346fc673fb52cc0006e5411cc9e2e957044704e983d2fe37f5ded68e676afce2f597fa01ce231ba1f4616ffc5742fc67fa4f4e0e58fafed3f14;
  0x1dee327f5ab241604cd01decd294659577a372d452b1df14545468b852cbc9fe7af21b2edaca6284e4fb960862e932cd8b4d5dbbf2ca083e3d50a53b5acc577ef;
  0x12d1663d3a75ab02f42b1e4ce257db1ed7f1e9ba72753e468f6c4a3452943fd5249a0b87da92ef2504143a2802b1ac805f102ef85292710f1d3f5b745a94dfbfb;
  0x1904e1c96275ab02f4700063325963324bbb7452c2753e468f9fa1e0b257a8f5eb51f6faea5648f2d373dd1112751caca186e9408255ea5e15e32ddbfa583eb87;
  0x1ccd4ec952b241604d03f5a3d2960b53b450288e02b1df1454a1b10762593db284938725625645c7d35f80a0f2751caca1b4d54f3255e5a525d842026259dc8bc;
  0x1009873a62e9cc347010b0d5f2cd7ecebdca2b87f2e95704473c3ee8a295de35736a764a4292ea604f7c5138f2b1ac805f554e95b2926d8142e28473d29666a81;
  0x1c19c7bf131c39779b342bde930004bfb8be5beb131bd34a7338f66d42cd5664940c39d2e2ca5f1ad95c10d3f2e932cd8b7edb9fb2ca05b2c6d9407b72ce00cb8;
  0x1e10d28843499640bfb8ccdeb32d51eee826655783492ece8beb7da242ffd27040ce3df892fcde4ee2805b7a031ba1f461b3686882fc6482cc01b967d3005dd48;
  0x1c172b9f7371f4e1775dcc8d7355a0a99a363ddd4371755a436e7f29832d2e3f8a834a21232a35f170bb3653e3490ed4c0e9be74d329ce0aadf14717e32dc5611;
  0x15df5d1d839525bf9a6a16f0c378e8c8b00eba359394b5fa34e47639235574a22f795cfb73527e23450889ae63714de673da4a92e3521cd7aac8cc5f9356177df;
  0x1f5a5f7413b347c74068b048f39710daa9e1666673b2e8fc18511fdca378b4fec2fae8ec3375c03853a4609af3948792601a1ece43754e25920aad6aa37947d2f;
  0x16f4cee613cc5bf35ad17be983b02244d50fa3a803cc0418d02ea6c01396e748cb52fba0b393f4250ed5b14cc3b2b4a237a937645393750fd2615f4e13976dcd2;
  0x1a34f35b53e05f6155863e5c93c4279876b9730683e008deb3ebbcf403b001f147d33b9853ad097666da30b5b3cbce42ec45b973a3ac8cdf51525c32f3b084505;
  0x114dfab533ef517199fc657c83d3254a7df0a3cd73ef06ce0def194ff3c401c2ad13cd6d33c10c143ce471adb3dfcdef677b220ac3c09427c1ca30faf3c488242;
  0x14dffa14b3f932760414ba2c03dd2e72cdfed4f493f90f02b07de198d3d2daf41befd5a9b3d001724fee82f6f3eea995a71b1e53b3cf910119d9f41053d378969;
  0x19fe4f3ef3fde11bbffbbba5d3e28bb026a64f1243fe628ef09b2d2943dc6bc3aeffd0a553d9d39e17fcab9fe3f845f3f55f141413d99d865ff112cd13dd5602e;
  0x1a0738777bfcfde338ebc744e3e3ded4b632a19503ffad0f147c379953dfa942abc9e7def3de6f0d870c936b33fb7d0e8b0d026f93df0e80f5c77d7fb3e20c758;
  0x1741f2b15bfcf59313f0676523e13f5c9807016273fd1e2a6b15d667cbe0c92ea739c3bb6bdd8502740fc32d2bfc99a9136e23eed3e04757b12dc2379be11c849;
  0x1e4800a9ebf673cf82cee9cde3da59002893390013f63523bbf42d6503df8d3900c0d4eabbdd7eaabab883bfc3fb63eef4967420c3ddb4a64da59a36abe117e11;
  0x1e4f718f13f673cf82cee9cde3da59002897c2e573f63523bbf42d6503d9e10bd42cfab12bd71baa7f822fc603f5af0b3fec1b3ef3d6d7b45eb0c3e4ebda9ef10;
  0x175e096853fcf59313f0676523e13f5c97e3544513fd1e2a6b15d667c3d9e10bd47b8c7853d71baa8057f03ac3f5af0b3fec1b3ef3d6d7b4636cc528c3da9ef10;
  0x1969bc7ed3fcfde338ebc744e3e3ded4b5dfedfcf3ffad0f147c379963df8d38ffe09684c3dd7eaabee54aaae3fb63eef4967420b3ddb4a64bfcc3aaf3e117e11;
  0x1a0ed9fa3bfde11bbffbbba5c3e28bb026a41d0c33fe628ef09b2d294be0c92ea6b21c0963dd85026b7a07575bfc99a9136e23eee3e04757b02c1be023e11c849;
  0x1502d0321bf932760414ba2c03dd2e72ce55768d23f90f02b07de198c3dfa942ab24c0b98bde6f0d885a9cbd63fb7d0e8b0d026fa3df0e80f68886cb7be20c758;
  0x113ea7347bef517199fc657c93d3254a7e06d59da3ef06ce0def194ff3dc6bc3aee77e6fbbd9d39e16bd1c2543f845f3f55f141423d99d8661d7865d6bdd5602e;
  0x19cec0ca8be05f6155863e5c83c4279876bc1344d3e008deb3ebbcf403d2daf41cb2765ccbd001724f9c66bd73eea995a71b1e53b3cf91011bc090bb4bd378969;
  0x16c1a5e16bcc5bf35ad17be983b02244d56d4aecd3cc0418d02ea6c013c401c2acb0ccd61bc10c143d6e04f313dfcdef677b220ac3c09427c4a50129cbc488242;
  0x1f38c5e58bb347c74068b048f39710daa98b3630f3b2e8fc18511fdca3b001f147c33b5a7bad097667c955a3c3cbce42ec45b973a3ac8cdf513c3aca2bb084505;
  0x15fc4e6acb9525bf9a6a16f0c378e8c8afc3b66bc394b5fa34e476393396e748cb4de2142b93f4250ec4a0a643b2b4a237a937645393750fd2cb7efb3b976dcd2;
  0x1bf50f57db71f4e1775dcc8d7355a0a99a41b56b2371755a436e7f298378b4fec33533991b75c0384f83c3d1e3948792601a1ece53754e2593d0168f1b7947d2f;
  0x1d5425b08b499640bfb8ccdeb32d51eee841833473492ece8beb7da2235574a22fe8a5b4db527e2344475c07a3714de673da4a92e3521cd7ac5b5aa83b56177df;
  0x1c705e543b1c39779b342bde930004bfb92b474d031bd34a7338f66d432d2e3f8a15dcfa8b2a35f16f779c7fe3490ed4c0e9be74e329ce0aadbd37e7ab2dc5611;
  0x1053aeb6aae9cc347010b0d602cd7ecebdc12f2762e95704473c3ee8a2ffd27040e820212afcde4ee4c6a1b0d31ba1f461b3686872fc6482cc8b892c3b005dd48;
  0x1cbb8c9b2ab241604d03f5a3c2960b53b43548edb2b1df1454a1b10752cd566493b241d50aca5f1ad9c860ac12e932cd8b7edb9fb2ca05b2c6a954087ace00cb8;
  0x1928b31e3a75ab02f4700063325963324b40fc1012753e468f9fa1e0b295de3572ff7d634a92ea60501439f6d2b1ac805f554e95b2926d8143c3ddd57a9666a81;
  0x1ae270e4b275ab02f4f91abc325a261895a9c21cd2753e469005d2a4a2593db284a9447c0a5645c7d373dd1002751caca1b4d54f3255e5a528bde9ee4a59dc8bc;
  0x15e040fe42b241604d6b25417296baaef6db7959b2b1df14553b831ca25a070c2629c392c2563f79a95f80a2d2751caca2103c34c255dc3ee02e40f9225a8a923;
  0x177cba6d92e9cc3470a4738462ce3cf5200e0712e2e9570447aa614682968bf2abc207f20292e0e290491e08a2b1ac805fdee3658292666e3f5b379d429728f60;
  0x154ce3df931c39779b98d167d300afca5a96d100231bd34a73ceff8ae2ce1b7eb1f2e9b652ca584f2c28dda2d2e932cd8be15d62c2ca00a21738a3c6a2cea93e2;
  0x1f5b9c7763499640c03b3cf4e32e17cd6a140c3003492ece8c4cb6ef83008233cce71efc62fcd50cee805b7cd31ba1f462399a51b2fc5d9c55b144f5230121a72;
  0x191d9205e371f4e177fe9e99f35658fd1f8cb708f371755a43e65efef32df483009ce3bad32a2ff1bd88032273490ed4c140b3804329c5195e036775932e7763b;
  0x14a614f5339525bf9ac867afc37994b4369ff8331394b5fa357115e94356348899d64817635276bdd6a2234a33714de674457f9b3352175452d9cd79f356ced41;
  0x162d2fba13b347c740d1ee20a397c3d615cdd90283b2e8fc18ee201df37969d2e670a7a96375b78b6ed793d0c39487926097d82bd37547adeb1123c5137a0f6ea;
  0x1ee0cdd973cc5bf35b4133d253b0e0aca5d51ac7c3cc0418d082297fc39793765b697dd07393ea76f2d5b14fb3b2b4a2383568a1f3936dd760e625d123982ee07;
  0x1600e01413e05f6155f7102b23c4e97ec6061e3113e008deb440c80543b0ab24a4466ecba3ad04531873ca50e3cbce42ecda252cb3ac8530e6e1fd8803b141843;
  0x155a308dd3ef51719a68bdc843d3e5adcc1267beb3ef06ce0e437aa4c3c4aad7780700a083c106e3f47e0b48e3dfcdef680f72f2e3c08c553ba6a81843c544af8;
  0x10ccc9d723f9327604771fd493ddf4d7e512172593f90f02b0d4e56413d38940add1846e83cff8ed65769f8a73eea995a7a3c362a3cf893e3497737533d437ced;
  0x1c51827233fde11bc0963480f3e3479f51a47fe6d3fe628ef10d043283dd2d30ab664eb923d9ca912263120903f845f3f5c7bbe293d995856cbe7f8493de1b2dd;
  0x1fe0d2110bfcfde3398f7da3b3e48c768991e57de3ffad0f1505fa3b03e0601b91182722f3de67f2d3d9603a63fb7d0e8b875b8543df0944ab2b2c1263e2bc8ee;
  0x1743f2b15bfcf5931491727893e2086cee7af8b7e3fd1e2a6b71b7e28be17a89cd4348440bdd7d7af276298fabfc99a913f1ac1a63e04101c533f45bdbe1d726a;
  0x1c5eb9ee8bf673cf83464ae473db1da7706abfc483f63523bc576f3853e048e497986a756bdd7742b37883bfa3fb63eef508bc2fe3ddac32c844f019fbe1cf783;
  0x1c41526123f673cf83464ae473db1da770860f5f63f63523bc576f3863da8e4c19bbb08bcbd7162d009e962c63f5af0b40768109d3d6ce93311fb443ebdb57905;
  0x177e096853fcf5931491727893e2086cee690c0fe3fd1e2a6b71b7e273da8e4c19ca930913d7162cfebe56a2d3f5af0b40768109d3d6ce93319b438ed3db57905;
  0x1fe9bc7ee3fcfde3398f7da3c3e48c7689910d5de3ffad0f1505fa3b13e048e497704b4283dd7742b2e54aad43fb63eef508bc2fe3ddac32c5ef977433e1cf783;
  0x1cae0d2d6bfde11bc0963480f3e3479f51997c5763fe628ef10d04328be17a89cd590e0483dd7d7afb7a075d9bfc99a913f1ac1a83e04101c537b52fc3e1d726a;
  0x10c454e5dbf9327604771fd493ddf4d7e5082d5ff3f90f02b0d4e56413e0601b90ff2d299bde67f2d6676989f3fb7d0e8b875b8563df0944a877c4d97be2bc8ee;
  0x154ed99a3bef51719a68bdc843d3e5adcc34a72673ef06ce0e437aa4c3dd2d30ab50d8d17bd9ca91244b828bb3f845f3f5c7bbe293d995856bc879d0fbde1b2dd;
  0x161ef9321be05f6155f7102b23c4e97ec5ced6e223e008deb440c80543d38940adf7232e6bcff8ed6483cd7ae3eea995a7a3c362a3cf893e36e9366e3bd437ced;
  0x1e9024598bcc5bf35b4133d243b0e0aca5c4178843cc0418d082297fc3c4aad777fa496fabc106e3f469bc2643dfcdef680f72f2e3c08c553c17d10d8bc544af8;
  0x162528595bb347c740d1ee20a397c3d615d264af93b2e8fc18ee201df3b0ab24a44812041bad0453186cb9d6f3cbce42ecda252ca3ac8530e63216c48bb141843;
  0x14a5fdc4fb9525bf9ac867afc37994b436a4c4aee394b5fa357115e9239793765b5e9dd6ab93ea76f8d513dca3b2b4a2383568a1f3936dd7626c9998db982ee07;
  0x19363f1c0b71f4e177fe9e99f35658fd1f7e84434371755a43e65efef37969d2e67ffceb0b75b78b72d5a520439487926097d82bd37547adebef3b99fb7a0f6ea;
  0x1f3cfef6ab499640c03b3cf4e32e17cd6a29a11163492ece8c4cb6ef735634889a14d7dbfb5276bdd7a9598b63714de674457f9b335217545397c08fdb56ced41;
  0x15582b902b1c39779b98d167c300afca5ae53ee4e31bd34a73ceff8af32df48300a2cca10b2a2ff1bc41731a43490ed4c140b3805329c5195e7a7f29fb2e7763b;
  0x1786e190fae9cc3470a4738462ce3cf5203d01a762e9570447aa614673008233cd2d0821eafcd50cecc654de831ba1f462399a51b2fc5d9c564b2fab0b0121a72;
  0x15b75fe31ab241604d6b25417296baaef6802cc0d2b1df14553b831ca2ce1b7eb1f96309caca584f2c9529c6e2e932cd8be15d62b2ca00a2168314da8acea93e2;
  0x1af4598eca75ab02f4f91abc325a261895934ff3f2753e469005d2a4a2968bf2abaa654f9a92e0e290e1066f92b1ac805fdee3658292666e3e3806a6ea9728f60;
  0x14479ed8c275ab02f5c51b54125a97c2f38e417712753e46909de08ef25a070c262745ca4a563f79a973dd0e12751caca2103c34d255dc3ede4f68405a5a8a923;
  0x1ba6a764b2b241604e04ae60229732e369da44d5e2b1df14562063bce25a6cb6843cf6c602563617d292b3d8b2751caca2983c996255ce42688e332c625b1188e;
  0x13fe5d36d2e9cc3471804fbbc2ceb7757270453fb2e95704484e41166297127d385a9d92b292d2c3437c513fd2b1ac8060ab9a35b2925be78dbbe5b6b2979bbbd;
  0x17267d79331c39779c2e933d43012b5638bdaa30a31bd34a74ae3e64b2ce89102b12e9b662ca4e32a628dda5b2e932cd8c73f02882c9f231714bcb4da2cf26cc3;
  0x18c767d553499640c0fd52b7e32e83f18b5b23a533492ece8cdd60fa13010bbba959f5e4a2fcc7469f4d284d831ba1f46301473a22fc5357f7e1690433019199e;
  0x12d8629c9371f4e178ede9954356de52e795a70fa371755a4498bcf6832e5afa3f1b3eaa432a2704ae54cff1d3490ed4c1c216d3b329b7caf5455be8632f043cb;
  0x1c694828639525bf9b54bddda37a188f28b16a432394b5fa364253a6f356abc7728314e453526bbc876ef01a23714de674e5047263520f2057392318a35740da9;
  0x1d53962073b347c7416e863f3398393bc5b2095233b2e8fc19d7bc308379f5aa5f0a41431375aaa2f8712d6e139487926152ea6433753e0e6d2fa73f737a78569;
  0x15d4010cb3cc5bf35be76f0fc3b14d39b31a02a733cc0418d0fe6c03039817b2cece5881e393dc0faa08e48703b2b4a2390602090393631901d3373d2398a3ef9;
  0x1ada79adb3e05f61569eeedbb3c5535722677e36e3e008deb4bf5248b3b1281d75700432b3acf95bee812e3fb3cbce42edb6fcea83ac79c2f02bc327e3b1bdc7a;
  0x15d3ca2773ef51719b09f40203d450b1d9e68b9643ef06ce0ec1085923c527e7f589e6b6b3c0fe5715c8e362f3dfcdef68ec22ca53c080b19c053ff813c5c22c7;
  0x1793303d93f93276050988c963de5b35192ffd40e3f90f02b1565ea963d4109ee30f289db3cfea195a436c5b83eea995a86f157503cf7db1c7b4180b23d4b051a;
  0x14858e05e3fde11bc17c0d4763e3c63ed6383755d3fe628ef1b6679503dda198efd981ec73d9bd19a196454013f845f3f66374c1f3d9899cb9fd4e0983de88a00;
  0x17a39c3bbbfcfde33a83162ea3e512d8a2a9832c53ffad0f15d2f538b3e0e831b4b1c0bce3de5d60ba3fc6a423fb7d0e8c3d67bbb3df017a5dfd7b5ea3e334302;
  0x18e55fbf1bfcf5931581124e03e26e9fa52bb90383fd1e2a6bfa6eac8be2066b83ee70eebbdd7246e80fc323abfc99a914b5629d23e037946d9552cf0be2469f9;
  0x1a2db9ee8bf673cf83f7ec44e3db8c0e8b0553b6d3f63523bceb1fc633e0c801d2aa040efbdd6c3d832bb6f2b3fb63eef5b2c7beb3dd9f9f96b4f667ebe2414c5;
  0x19d4859463f673cf83f7ec44e3db8c0e8af2deb9d3f63523bceb1fc643db141e289a9845ebd70e01a940962c63f5af0b41446ecdd3d6c0fd8b6ab3208bdbdc592;
  0x18d56b1a93fcf5931581124e03e26e9fa51baab973fd1e2a6bfa6eac83db141e2892165163d70e01ab8b2371f3f5af0b41446ecdd3d6c0fd895735c603dbdc592;
  0x181b44a5e3fcfde33a83162ec3e512d8a2af778793ffad0f15d2f538b3e0c801d2d6b1a923dd6c3d7e187de3b3fb63eef5b2c7bed3dd9f9f977cd04273e2414c5;
  0x1482a0305bfde11bc17c0d4763e3c63ed650357793fe628ef1b66794fbe2066b8412ed6893dd7246e6ad3a998bfc99a914b5629cf3e037946dcbc73d33e2469f9;
  0x17981b4c3bf93276050988c963de5b35193c18bf43f90f02b1565ea963e0e831b4abf9f66bde5d60be34365663fb7d0e8c3d67bbb3df017a5e74d0db5be334302;
  0x15ca7533dbef51719b09f40203d450b1d9ea33e443ef06ce0ec1085933dda198efcb259e4bd9bd19a49eb5bed3f845f3f66374c1f3d9899cbb4b506c1bde88a00;
  0x1ac6faa54be05f61569eeedbb3c553572275204e33e008deb4bf5248b3d4109ee2e9e730dbcfea195c261a47b3eea995a86f157513cf7db1cc5bd283dbd4b051a;
  0x1606ca24bbcc5bf35be76f0fb3b14d39b315db6273cc0418d0fe6c0303c527e7f57fd4eb0bc0fe57157e39e623dfcdef68ec22ca53c080b19a918f7a9bc5c22c7;
  0x1d5351b8abb347c7416e863f2398393bc5c7dcbb53b2e8fc19d7bc3083b1281d755749f54bacf95bf011eec773cbce42edb6fcea83ac79c2efd80e4aebb1bdc7a;
  0x1c47bd21bb9525bf9b54bddda37a188f28a0d168b394b5fa364253a6f39817b2cea7fcf02b93dc0fab58867b13b2b4a239060209139363190250773a5b98a3ef9;
  0x12e10f19cb71f4e178ede9953356de52e8021a551371755a4498bcf67379f5aa5f06c808eb75aaa2f6faecdf139487926152ea6443753e0e6fcdd25eab7a78569;
  0x1897e71f2b499640c0fd52b7e32e83f18b5e118523492ece8cdd60fa0356abc77277cdd91b526bbc8627fa8933714de674e5047263520f2053bdfbf8ab5740da9;
  0x1731c019bb1c39779c2e933d33012b5638edbe25831bd34a74ae3e64c32e5afa3f15d32d9b2a2704af0a161903490ed4c1c216d3a329b7caf82e8a251b2f043cb;
  0x1403708a0ae9cc3471804fbbd2ceb7757252bc44d2e95704484e411673010bbba99694470afcc7469d92b5ae231ba1f46301473a22fc5357f88dbe967b019199e;
  0x1b7dc643dab241604e04ae60229732e369d1cd3da2b1df14562063bce2ce89102aebfcf01aca4e32a695249502e932cd8c73f02882c9f231702b0c130acf26cc3;
  0x1470932d8a75ab02f5c51b54125a97c2f3632e26e2753e46909de08ef297127d386a5dbe0a92d2c34414392c82b1ac8060ab9a35b2925be78f0743c3ba979bbbd;
  0x1a679ed8c275ab02f6d20b36e25b02c001e99f06a2753e46916654bee25a6cb68418e17c5a563617d2a7103ea2751caca2983c997255ce426cf741d8fa5b1188e;
  0x1c39ba18c2b241604ecf16784297857abc6ba771b2b1df14574e1ea0625aceddb67cf6c6225629b98492b3dc22751caca34b872fd255bbd2624dea61525b5b264;
  0x1774c39d32e9cc3472a2277012cf16dd28a72aec42e9570449264a53b2975c5c5fadd0c5f292c02531e2b7ab62b1ac8061b97a5132924e0721d972b5f29805454;
  0x1b801712c31c39779cf4002803017be5467f48e9231bd34a75d48c95a2cef2d893261ce9b2ca40de2f5c10dc92e932cd8d352a93d2c9de52712282b9e2cf76228;
  0x19edce3bb3499640c1fd2fa7332eec593b566af843492ece8d9c1719530153c959805c4b22fcb51ddc19f51f531ba1f4640882d902fc45cef8aea3132301fdae8;
  0x1ecec902f371f4e17a295f89f3572f86b56c5768a371755a4583e150632eb85b8c0e71dd932a1b404588032843490ed4c26ca96fe329a6404235f82e232f4a45f;
  0x1f42e1c2039525bf9c0dbf7d337a641083dd19a21394b5fa37562b9473570f73d15b240bd3525d3a74a2235163714de675b74fd07352044fe2aecb2d135797340;
  0x193697dd13b347c7423cf69273988d883f786219b3b2e8fc1b0bb422437a3e56836b87080375999ea13dfa3f9394879262498841c375315eced399d6637add9eb;
  0x12039a1ff3cc5bf35cc293cd43b1a6e788a8b36273cc0418d1a23bef839862f8dc74bee86393c9129ed5b15903b2b4a23a190150639354ef1baff28c83990a79b;
  0x186d3cd6e3e05f61577c3c8f73c5aeaa43e400fb53e008deb56623c4d3b177ce8c3cd0ff93ace533c01ac7dee3cbce42eeda2034f3ac6ab1a965281ae3b21ae00;
  0x1e937ead53ef51719bde7ab583d4ab4eb5c5a20113ef06ce0f668ce253c5778aa629e6b6d3c0e9fc0dc8e36893dfcdef6a0f117ae3c0715987bad05b63c61da9c;
  0x11d66370c3f9327605ca8c1423deb8a63c556ec513f90f02b2010e33f3d459fd4f1bf56a93cfd68cffdd05fa83eea995a97b1f45a3cf6e7859a0a0f623d512554;
  0x12bbf46c53fde11bc2ab0f4df3e4203f39471031d3fe628ef295b5b403de08fdd3598dc313d9ab58bf2fdedea3f845f3f730bec6b3d979e99c716e65e3def24a4;
  0x13c39c3babfcfde33bc43854f3e55cd0643cc1f723ffad0f16e12f3553e135ca1fbf46c513de4f714972f9dba3fb7d0e8d2d663fe3deee6a93ce629043e387210;
  0x1398f958bbfcf59316bcf81f53e2d14a7a8fe19b33fd1e2a6caea9b73be24d0b27ae70eeabdd6382100fc31c9bfc99a915b764f333e02b26e75a8e60cbe29e869;
  0x18c90e90ebf673cf84e2180013dbf6a53344c9f3e3f63523bdadd2f0a3e1215d6768353abbdd5db644d883bf53fb63eef692f391e3dd8f0baf6dadb67be297c47;
  0x18da42ca33f673cf84e2180003dbf6a5336de62cf3f63523bdadd2f0b3db5e6d852fab791bd7033ca76f62f933f5af0b4253e8d793d6af14f509e2e1bbdc2e45c;
  0x13a237e763fcf59316bcf81f63e2d14a7a9f1692a3fd1e2a6caea9b723db5e6d8532165183d7033ca78b2374f3f5af0b4253e8d793d6af14ee427f62b3dc2e45c;
  0x140e77d923fcfde33bc43854f3e55cd06410c78613ffad0f16e12f3553e1215d6751bf3b13dd5db6487ee44e53fb63eef692f391f3dd8f0bb27077b4b3e297c47;
  0x12b76cfd2bfde11bc2ab0f4df3e4203f394c6e74b3fe628ef295b5b3fbe24d0b27c6209b93dd63821846d43e4bfc99a915b764f323e02b26ea3d1c74d3e29e869;
  0x11d29b4c3bf9327605ca8c1423deb8a63c5bf9a903f90f02b2010e33e3e135ca1f29302e7bde4f7145da9cbc53fb7d0e8d2d663fd3deee6a97a24088fbe387210;
  0x1e9cb366bbef51719bde7ab583d4ab4eb5b6538613ef06ce0f668ce253de08fdd36612cf2bd9ab58c026b5bed3f845f3f730bec6b3d979e99b70b93c2bdef24a4;
  0x185cdd45dbe05f61577c3c8f73c5aeaa43c05a8d03e008deb56623c4e3d459fd4f1410ca6bcfd68cfeba671473eea995a97b1f45a3cf6e78593e6000bbd512554;
  0x11f29099fbcc5bf35cc293cd43b1a6e788bf230433cc0418d1a23bef93c5778aa64e6a517bc0e9fc0c638d1963dfcdef6a0f117ae3c0715986266b611bc61da9c;
  0x192f30ffabb347c7423cf69273988d883f8b45a103b2e8fc1b0bb42243b177ce8c3f0f607bace533c143db6113cbce42eeda2034f3ac6ab1a9f2b11b1bb21ae00;
  0x1f6da0439b9525bf9c0dbf7d237a641084144d5c0394b5fa37562b94739862f8dc72e47ccb93c9129d99e1b7d3b2b4a23a190150739354ef1deedfb61b990a79b;
  0x1ed2c5be5b71f4e17a295f89f3572f86b57ae35c0371755a4583e150537a3e56836ec4ff0b75999ea0cdda5ff394879262498841c375315ed01826a56b7add9eb;
  0x19de0d9f9b499640c1fd2fa7332eec593b7be42e53492ece8d9c171943570f73d1599ee32b525d3a72f732ee33714de675b74fd08352044fe1e528170b5797340;
  0x1b8b5339ab1c39779cf40027f3017be5468f546fe31bd34a75d48c95832eb85b8c01f2902b2a1b404437f62623490ed4c26ca96fe329a640440016e9cb2f4a45f;
  0x1779d6a08ae9cc3472a2277012cf16dd28bdd87762e9570449264a53b30153c959ab9b4e1afcb51dda5ef85d431ba1f4640882d8f2fc45cef95a44c8cb01fdae8;
  0x1c354984aab241604ecf16784297857abc60c57042b1df14574e1ea062cef2d893421ca79aca40de2fc8512352e932cd8d352a93c2c9de526f94c512eacf76228;
  0x1a70932d3a75ab02f6d20b36f25b02c001d9d8f5d2753e46916654bee2975c5c5fb44dee0a92c025327a9efbc2b1ac8061b97a5122924e0722f14806ba9805454;
  0x11e79ed8c275ab02f81d5359e25b37209c9bfa0f82753e46925d4100825aceddb6880125da5629b982a7103b42751caca34b872fd255bbd25face799ea5b5b264;
  0x165ced4bf2b241604fc86a856297d451d408924f42b1df1458c1cbe3225b1647e00e7b6322561a7d2292b3e042751caca42861f0e255a51c0407c137925ba16bd;
  0x149e5d36d2e9cc347407300bb2cf4f5013f3d0cce2e957044a30685fa297a2e0abe76a5fa292a9364515eae4d2b1ac806305ea5d02923cef30ed0530b2983a288;
  0x1dacd856331c39779de7316b8301c8cbba0e1795f31bd34a773f148792cf2be98f0974db52ca3072ac28ddadd2e932cd8e233040f2c9c5d82f3e282fe2cfc1de7;
  0x178a9b0883499640c3385cf3832f2801893f01fda3492ece8e87031e330198915226c2b192fc9ebf68e6c1f2331ba1f4654cc433a2fc3522b695317e3302326d4;
  0x1d6b95cfc371f4e17badf6b9e3576cf7a524e8303371755a46a58853432f08bf970a6c22132a0cc18fee699293490ed4c33ec6cc732990a49982b874f32f8d20f;
  0x1cab0a7aa39525bf9cf1a470337aac2405fed88ea394b5fa38a9f59f93574666ab0e573f13524b5b610889bca3714de676ba5b3eb351edfb5020624d8357e9a19;
  0x1a5cfe4373b347c7433b42254398de00a407ecea83b2e8fc1c8710ad837a7ec7011853d4e37584a86ad793ded3948792637951c1037521be4fa382e7137b1f26a;
  0x1956cd5323cc5bf35dd085c2e3b1fc82bbaa800e93cc0418d26c0567c398aad3c267f21ba393b1aec13c17c5c3b2b4a23b6bc07c6393437cb4fb83f74399406aa;
  0x1c1d3cd6e3e05f61588cd7ab53c602ebd03cf44c03e008deb633a132c3b1c3e11db66a9943accc5f5b4dfb18d3cbce42f040c14513ac58222d8b8bcdc3b25422c;
  0x1189e513c3ef51719ce445eb33d500e709b23faaa3ef06ce1032702e23c5c38f7949e6b6e3c0d0e901c8e36f53dfcdef6b7571bf63c05e72dae372c543c6577d0;
  0x1ede64eba3f9327606b84dd943df08ec7ea51b3e33f90f02b2d34f33c3d4a006b8cf289de3cfbe788e436c6773eea995aac54c0083cf5bb76eddbd5593d549dd7;
  0x14e25ad2c3fde11bc4204f89d3e45a98614cadd7c3fe628ef3a8c804e3de3ea1de33275cc3d9957a4e631217d3f845f3f82d9fd0f3d96692bf821305b3df2b93f;
  0x15d6cf6edbfcfde33d4fcc5be3e5a36c2c6f8bc283ffad0f182e0df7f3e1747fa125ad2bc3de3e46d0a62d1403fb7d0e8e55076223ded51d7c13539343e3d64d9;
  0x1ce3c6257bfcf5931842191a83e317bd164b5aafd3fd1e2a6d8cacaa4be29075b3fb3dbb5bdd5150b9a95cad9bfc99a916f5370353e01bd7e1c0b4a9abe2f26f9;
  0x120881c41bf673cf86028cc1c3dc2e32500493a4c3f63523be9da8b353e15bf07d49ced45bdd4bd0e3beea2583fb63eef7a716fc23dd7aa00014a8bf8be2ea4f3;
  0x11f70f9703f673cf86028cc1c3dc2e325001d69053f63523be9da8b353dba55cedead1df8bd6ebf10ac5f92583f5af0b43a251d923d699058aa854b03bdc6b75c;
  0x1cd237e763fcf5931842191a83e317bd163dbc35f3fd1e2a6d8cacaa43dba55cedd87cb803d6ebf10be313bde3f5af0b43a251d923d699058968690b63dc6b75c;
  0x15db44a5f3fcfde33d4fcc5bd3e5a36c2c759f6453ffad0f182e0df7f3e15bf07d51bf3b33dd4bd0e47ee45363fb63eef7a716fc33dd7aa0022349d313e2ea4f3;
  0x14e5d3638bfde11bc4204f89c3e45a9861556db6e3fe628ef3a8c804ebe29075b412ed6833dd5150c6ad3ab23bfc99a916f5370343e01bd7dff9c45043e2f26f9;
  0x1ef21da62bf9327606b84dd943df08ec7e86f211e3f90f02b2d34f33c3e1747fa182c9c81bde3e46d04dcfef03fb7d0e8e55076233ded51d7b2220e73be3d64d9;
  0x11731dcd2bef51719ce445eb33d500e709c2a40ee3ef06ce1032702e23de3ea1de2dd2cf2bd9957a4d9eb5bec3f845f3f82d9fd0f3d96692c346ee20cbdf2b93f;
  0x1c1f763f7be05f61588cd7ab53c602ebd041ab7803e008deb633a132c3d4a006b8fd0d973bcfbe7891214d7ae3eea995aac54c0093cf5bb76d3d81f8bbd549dd7;
  0x195dead06bcc5bf35dd085c2f3b1fc82bb9ac78f33cc0418d26c0567c3c5c38f7948c904abc0d0e90227b6b2f3dfcdef6b7571bf63c05e72d90e1a4c3bc6577d0;
  0x1a6a062a1bb347c7433b42253398de00a400c3c5f3b2e8fc1c8710ad83b1c3e11d9cbb5d4baccc5f5c7d8ec773cbce42f040c14503ac58222c4111afdbb25422c;
  0x1c9dd4606b9525bf9cf1a470337aac2405c4c5d2c394b5fa38a9f59f9398aad3c25713777b93b1aec0bd68d173b2b4a23b6bc07c6393437cb6638d716b99406aa;
  0x1d69e8a32b71f4e17badf6b9e3576cf7a4eb59aea371755a46a58853437a7ec700f8484dbb7584a869f93a2913948792637951c1037521be4cccd08adb7b1f26a;
  0x179a8d33db499640c3385cf3832f2801893d63e3d3492ece8e87031e33574666ab07d67dcb524b5b60e4c604c3714de676ba5b3eb351edfb513363485b57e9a19;
  0x1db272800b1c39779de7316b7301c8cbba1e5bba331bd34a773f1487a32f08bf970b2f132b2a0cc19097ed2f23490ed4c33ec6cc732990a496930e5abb2f8d20f;
  0x14a36fd99ae9cc347407300bb2cf4f5013fd3550e2e957044a30685f93019891522995a19afc9ebf632b1e40431ba1f4654cc43392fc3522b49ae0255b02326d4;
  0x16487cb36ab241604fc86a856297d451d3e30e7e52b1df1458c1cbe322cf2be98f04fe393aca3072aa9515e8a2e932cd8e233040f2c9c5d834cee9534acfc1de7;
  0x11f0932cda75ab02f81d5359e25b37209c7f378082753e46925d41008297a2e0abf264740a92a93641add17842b1ac806305ea5d02923cef2fccb3da5a983a288;
  0x1ae79ed8d275ab02f9a3c2fd625b688227d00749c2753e469380448f125b1647e00715ba1a561a7d22a7103722751caca42861f0e255a51c0491febdaa5ba16bd;
  0x1830207f32b2416050ee43d492980f532866f7e842b1df145a77d72e625b4272d08e7b63325608885a92b3e512751caca52cac5cb2558a57935f4af2725be3ac3;
  0x1213fb6842e9cc3475abf951d2cf84884f66e08272e957044b6a0b22e297e55c42a103f952928e2f00491e1f42b1ac80648db6bfd29228c9e0b4cffbb2986c053;
  0x1ce9a523031c39779f05cf75730208a5fe0b8c02531bd34a78ea587012cf5b836b7fdb41c2ca1d188af5aa7fd2e932cd8f3bb65ce2c9a8ff03c0c679c2d004a2a;
  0x1ea434a223499640c4abd191d32f56fcad6d7a4783492ece8f9be1da8301d96a000d291812fc846271b38ec6131ba1f466caebdd02fc217c51ffe5685302630fd;
  0x135764818371f4e17d77f11b3357a6e4c8b18b045371755a47fae7e1c32f32c4b0f0d2888329f75875766cc7f3490ed4c43668e41329772d1e96c4cae32fcc28d;
  0x17163dadd39525bf9dfe3adbb37af017fbf3219d6394b5fa3a3a6c0f63577a34cdab240bf352364b5ea2235bd3714de677eba815b351ce94fce6305c43581bac0;
  0x157364a9e3b347c74466f605939914ef4736687db3b2e8fc1e462a89237abb87c9d1ed6e93756bf3f20ac718a394879264df59eba3750f5372a9997af37b4cba0;
  0x1cd066ecc3cc5bf35f0eab69a3b2269c1ea037b543cc0418d359d6ee3398ee92599b254ef393961da7a27e3393b2b4a23cfafc65d3932eecc763dab8f3997345a;
  0x17e0700a13e05f6159ce2018d3c62c042502142b93e008deb725cff3f3b205ccce619bb313acaf1bf8e794ba43cbce42f1e76beee3ac4242435f7e2723b28a1ef;
  0x12ed1846f3ef51719e18d034c3d529ad5944270043ef06ce1122bb9153c6059d8161c02853c0b35bc0fc16aa73dfcdef6d1bd00bc3c0482c2fbe180d23c68e017;
  0x16c7fe8533f9327607d083ed23df32f8b8d556a293f90f02b3cb1b4bc3d4e20e74a8c23793cfa21761769fa233eea995ac4a6da0e3cf459d36844b9df3d57e385;
  0x14212d6963fde11bc5d835c2c3e4919b08869ee7f3fe628ef4ecf85d23de713458dff429b3d97bb427fcabb853f845f3f957a86cf3d94fc7d98bf91d13df5b204;
  0x1e8e9aeaabfcfde33f2202fee3e5e5fde74b1dc463ffad0f19b65cd6c3e1af9ec4a5ad2c23de2a0ba4a62d1a13fb7d0e8fb1724923deb74bc710d64aa3e410795;
  0x1a441645fbfcf5931a0cb5e1d3e34423430d235a03fd1e2a6e92542bfbe2d004f274d754cbdd3bdfd0dc8fd6cbfc99a9186bc93d63e009cd0c0cdf7d1be320c5d;
  0x168bc82a7bf673cf8756835f83dc5e28fbfc83ce33f63523bfb851c2e3e19329c2369ba12bdd36b96d721d5873fb63eef8ec893183dd628ed940c51e4be31c109;
  0x16970f9703f673cf8756835f83dc5e28fc0cd0f703f63523bfb851c2f3dbe83d80ff1eac4bd6ccabe9fc5f8be3f5af0b452c715c73d67f05bc0e5b960bdca525a;
  0x1a391bf3b3fcf5931a0cb5e1d3e3442343110d0753fd1e2a6e92542be3dbe83d80f87cb813d6ccabebe313c643f5af0b452c715c73d67f05c33ccf8553dca525a;
  0x1e60d58633fcfde33f2202fef3e5e5fde734450323ffad0f19b65cd6c3e19329c251bf3b63dd36b9707ee45943fb63eef8ec893183dd628edeb0c210a3e31c109;
  0x142f50182bfde11bc5d835c2d3e4919b0882e8c0b3fe628ef4ecf85d1be2d004f2b953ce63dd3bdfd9e06df52bfc99a9186bc93d63e009cd0cdce6e373e320c5d;
  0x16c8873fbbf9327607d083ed23df32f8b8d859e073f90f02b3cb1b4bc3e1af9ec4d5fcfb5bde2a0ba5b43654d3fb7d0e8fb1724923deb74bc94bf7de8be410795;
  0x12e8f0cd2bef51719e18d034c3d529ad59364acb93ef06ce1122bb9153de713458d4c6025bd97bb429604f5853f845f3f957a86cf3d94fc7de2d908ffbdf5b204;
  0x17d89eff7be05f6159ce2018c3c62c042504cc5da3e008deb725cff3f3d4e20e74ad61973bcfa2176219cd7ae3eea995ac4a6da0d3cf459d372436c2cbd57e385;
  0x1cd813986bcc5bf35f0eab69a3b2269c1e8c12e713cc0418d359d6ee43c6059d815910c25bc0b35bbd03deb2f3dfcdef6d1bd00bb3c0482c2ef39b3b5bc68e017;
  0x1588d5f37bb347c74466f605a39914ef47282a00c3b2e8fc1e462a8953b205ccce5e438eabacaf1bf8d9b04773cbce42f1e76beef3ac42424ab4ec6ebbb28a1ef;
  0x171e34cf0b9525bf9dfe3adbb37af017fc086a273394b5fa3a3a6c0f6398ee92598f8a48ab93961da88ab51313b2b4a23cfafc65d3932eecc9b01269cb997345a;
  0x135342df7b71f4e17d77f11b3357a6e4c881d281b371755a47fae7e1b37abb87c9d43aa91b756bf3ef5ea1f56394879264df59eba3750f53726fe23e9b7b4cba0;
  0x1eb3cd00bb499640c4abd191d32f56fcad7f807d73492ece8f9be1da73577a34cdb0870d6b52364b5df1ddafa3714de677eba815b351ce94fcf236781b581bac0;
  0x1cef3ac01b1c39779f05cf75730208a5fe0ec236731bd34a78ea5870132f32c4b0ee8ef10b29f75876ba7c8993490ed4c43668e41329772d2197d3f68b2fcc28d;
  0x121684818ae9cc3475abf951d2cf84884f6823a202e957044b6a0b22e301d96a003e0aaaaafc84626ff728f2c31ba1f466caebdd02fc217c4fde44607b02630fd;
  0x182bafe18ab2416050ee43d492980f532860bebd22b1df145a77d72e42cf5b836b73be3f8aca1d188b61d95f22e932cd8f3bb65ce2c9a8ff06a14c42ead004a2a;
  0x1af0932c7a75ab02f9a3c2fd625b688227d01ce512753e469380448f1297e55c4294af12aa928e2f00e103d702b1ac80648db6bfd29228c9dfab48da3a986c053;
  0x17abcf6c7275ab02fb61978ab25b966ae559badd62753e4694cc91f1e25b4272d09982c4ba5608885aa7103252751caca52cac5cc2558a5790b83a323a5be3ac3;
  0x135ced4c02b24160523dcdefd29831e078bcadd822b1df145c6c088b725b6b82c89e7b634255e80eb92567d4f2751caca655e4b992556bc6d0fd38ec925c10a21;
  0x167d9501d2e9cc34778c75d862cfb602a584f51eb2e957044cd02d5f229811959d93b52ff2926f520d15eaf432b1ac80664d1987229211c8dda877fbb2989a607;
  0x1ba00b89731c3977a04d17a403022a59a6b97d3d331bd34a7ad23aeba2cf87c483bca80eb2ca06ff868f441f42e932cd907c094bd2c9880e08c435e372d025d37;
  0x147880b783499640c653f9b6d32f82aa361f85eee3492ece90d808b443020ad9c2002e25b2fc6647e819f534731ba1f4687f4ba902fc0b0c30fd6f3c230290470;
  0x1910fe1b2371f4e17f82e5921357dcbf4fe2f18fa371755a4980b65ad32f59d57aa405bbc329d054ce43399f13490ed4c5512d31b3295a18b04360b8333003612;
  0x11ce3dadd39525bf9f30ec91537b17a26ee1f372a394b5fa3c03b394d357aa5e8047f0d8d3521e3e583bbcfbd3714de6794845a3f351aaba37cc9cf483583fcbd;
  0x1939cb1053b347c745bd2f4f2399383379e17c1373b2e8fc2044b36ac37af4031551ed6eb3754fbe3e0ac7202394879266782e0e8374f49755741453d37b77191;
  0x1396cd5333cc5bf36079f46393b24c208917c4b7d3cc0418d4696630839916c6cea72c41239376a34a08e4a253b2b4a23ec2dcc503931771fb3c73b54399a28d4;
  0x132d3cd6e3e05f615b3cfdbee3c65238cf5c101e33e008deb83a5af373b227239b5b354cc3ac8db1a74dfb2983cbce42f3ca0e2593ac2947d74c53f1d3b2bc4f8;
  0x1f2d1846f3ef51719f7920e3c3d54f95c27dfdde43ef06ce12351e9e93c626ee4864f35b93c0919d2dc8e38033dfcdef6efe1b0f53c02ebc7012c08453c6c0b0a;
  0x1eeffe8543f9327609107b7913df5a1022e2b93a83f90f02b4e60f8f23d50fb8dbd4611be3cf81af61769faad3eea995ae06c4c763cf2c602cd2c5f9c3d5aee4d;
  0x1aa2c70303fde11bc7ce856f73e4c4bf8f46499d93fe628ef65f277983dea038951ff429c3d95e45e7fcabc033f845f3faabf9d353d935c127c7127523df8754b;
  0x1f9834843bfcfde341365ed553e611f0bacfc18a43ffad0f1b76549d53e1e695c9d8e05fb3de12f1ae3fc6ba83fb7d0e913f4bf593de953f0dad49e843e4332c1;
  0x1f40c9792bfcf5931c1863c913e36d6a4d15f6deb3fd1e2a6fbd1b257be3058e1870d210bbdd2364127629651bfc99a91a17802783dfea65cb2aa1ae0be3458bf;
  0x1ccc5e90ebf673cf88dab5b273dc8ac05d2d8d3b73f63523c0fb153f13e1c6810f9f686debdd1ea3dda5508b63fb63eefa6027d553dd471387795b39dbe3403d3;
  0x1ced75fd73f673cf88dab5b273dc8ac05d202fffd3f63523c0fb153f23dc13352dfe15bc9bd6a8f710bec5f243f5af0b46ee7bb3a3d66155a5914322abdcdac73;
  0x1f3c4f26f3fcf5931c1863c913e36d6a4d189542e3fd1e2a6fbd1b2583dc13352e05d7f5b3d6a8f712497a3623f5af0b46ee7bb3a3d66155a521fbad83dcdac73;
  0x1f9a6f1fd3fcfde341365ed563e611f0baca4cc663ffad0f1b76549d43e1c6810fc4f26ec3dd1ea3dbb2179323fb63eefa6027d563dd4713874776af23e3403d3;
  0x1aa9e9b1cbfde11bc7ce856f63e4c4bf8f4dcb3a73fe628ef65f27798be3058e18964380b3dd23640b7a07a08bfc99a91a178027a3dfea65c3c7e4baf3e3458bf;
  0x1ef55da62bf9327609107b7923df5a1022d605bdb3f90f02b4e60f8f23e1e695c992c9c82bde12f1b04dcfedb3fb7d0e913f4bf573de953f0fb1b6d41be4332c1;
  0x1f27e7005bef51719f7920e3c3d54f95c283da63c3ef06ce12351e9e73dea038953652cf2bd95e45e22eb5beb3f845f3faabf9d353d935c1279b8ac49bdf8754b;
  0x13382525dbe05f615b3cfdbee3c65238cf4caf0693e008deb83a5af363d50fb8dbe4e1fedbcf81af5ded80ae13eea995ae06c4c753cf2c602d713ac88bd5aee4d;
  0x13a311306bcc5bf36079f46393b24c20890b9e44f3cc0418d469663073c626ee48757fe8bbc0919d2e44dd1963dfcdef6efe1b0f63c02ebc703eb362dbc6c0b0a;
  0x194540c40bb347c745bd2f4f1399383379e38ea8f3b2e8fc2044b36ac3b227239b57716eabac8db1a6ae9ec773cbce42f3ca0e2593ac2947d7f57c93dbb2bc4f8;
  0x11d3b5a72b9525bf9f30ec91437b17a26ed83791f394b5fa3c03b394c39916c6ce8cef884b9376a34a9c828643b2b4a23ec2dcc503931771fa40ae6efb99a28d4;
  0x190923741b71f4e17f82e5921357dcbf4fb21a1d9371755a4980b65ae37af403155bbf33ab754fbe404970abe394879266782e0e8374f4974f8b2e9c5b7b77191;
  0x14901a24fb499640c653f9b6d32f82aa362fec8243492ece90d808b44357aa5e804919becb521e3e5aeca124c3714de6794845a3e351aaba37a8d5c67b583fcbd;
  0x1bb59c01cb1c3977a04d17a403022a59a6d54a7c731bd34a7ad23aebb32f59d57a99801e1b29d054cf765e1a93490ed4c5512d31a3295a18ada9d36dab3003612;
  0x16801ddb9ae9cc34778c75d862cfb602a581fd2002e957044cd02d5f13020ad9c20cd1b92afc6647ea5cb3ecc31ba1f4687f4ba8f2fc0b0c324a50356b0290470;
  0x13587ca88ab24160523dcdefd29831e078a129a762b1df145c6c088b62cf87c483bca9f52aca06ff86fb686a92e932cd907c094bd2c9880e04458bed7ad025d37;
  0x17b049960a75ab02fb61978ab25b966ae54c8375c2753e4694cc91f1e29811959d910b8cea926f520dadcfb392b1ac80664d1987229211c8dd126fec9a989a607;
  0x1a1235d2d275ab02fd5285d8f25bc069a554dcfe12753e46963ef5e5225b6b82c89fb9ac9a55e80eb94e2059d2751caca655e4b9a2556bc6d01ea7abaa5c10a21;
  0x1e6ced4c02b2416053b3cd984298517babab2590d2b1df145e998ecb025b91128bb1ae969255ba5989f234adc2751caca7a12e41a25549b54982e910825c2ccde;
  0x13559501d2e9cc3479a4050562cfe3451a7b1c5d12e957044e5f5c2102982dda99c3b53002924ceb8915eafd42b1ac80683fc3b49291f049b978d843c298c4c7e;
  0x104cd856431c3977a1b9e3142302492dc09338e8a31bd34a7cf2092312cfb03fbcdca80ec2c9dcbc411e884b72e932cd91e11351f2c963567dcac05112d0442fe;
  0x1ee880b783499640c82cbfa9032faa9e7438480463492ece92386c390302266c9de36158f2fc44ba10e6c20a131ba1f46a65afbf52fbe41365396d044302b9a36;
  0x1010fe1b2371f4e181c9cad0c35807013a83220ed371755a4b3332b5532f7d91a41405bbe329a4d87a4339aa83490ed4c68c5a91a32939af030e6456a3301e2e5;
  0x166970e1139525bfa086c56fc37b3487750df37c2394b5fa3e0164cd3357d66d04f7f0d8f352036fa83bbd02e3714de67accd86dd35182c36b0509fe235860d74;
  0x14ccfe4383b347c7473aa24803995875f77e55c573b2e8fc227dc0a3937b13d6d1c5c3843375304cc53dfa5b93948792683fde3aa374c5b59ec96cdd737b9ddb5;
  0x10fd33b9a3cc5bf3620ee10a53b26e721e7067d123cc0418d59815ac539933952323f90e0393538d553c17deb3b2b4a240befdad0392fa8c8ac17823f399cdcd0;
  0x18e6d67083e05f615cd5e82343c6752b9dc515b7a3e008deb96e9865e3b245a2c414cee663ac6872f1b46199b3cbce42f5e40203e3ac0d7086122d8653b2ea38a;
  0x15bd184703ef5171a101d35d53d57242d03c6ecd23ef06ce1366f4db43c64567ee8b59c203c06c006f627d23b3dfcdef7117adbc03c012624ae904c8f3c6ef0d9;
  0x1b6e64eba3f932760a751fa2c3df7dd25bf491f673f90f02b621726443d52bcc94b4611bf3cf5d9091769fb453eea995aff609f7a3cf103eabe5987c63d5db6b1;
  0x121dfa3633fde11bc9fe682733e4f387df2b5e9683fe628ef7fbc4b173decb3aa873275d23d93d781a63122f43f845f3fc274cfd53d918bec2c0872173dfafc46;
  0x14d50150fbfcfde34387bf6183e62e3f212d44b6f3ffad0f1d69a4ddd3e20c6e955fa36343ddf263cae5f3ea73fb7d0e92fabf8923de6f4b42861e1633e452e99;
  0x1e102fdf8bfcf5931e6017b983e3932c701c0a2733fd1e2a710a20fa9be32094dfb40543dbdd0819f742f6256bfc99a91bf43d43a3dfbc7873565b415be3672f8;
  0x16038daedbf673cf8a8b66a923dcb38a83e4940233f63523c262d76863e1f577d22902078bdd03cba20bb6f183fb63eefbfe5eb4f3dd2871cec73ca4ebe361545;
  0x1618549853f673cf8a8b66a913dcb38a83fc3930a3f63523c262d76873dc2fa51ad2c2895bd6812a7a8792bf03f5af0b48e41b54c3d6403e65670eeb7bdd05eb2;
  0x1dfde8c093fcf5931e6017b983e3932c70224df8c3fd1e2a710a20fa83dc2fa51ae2a4c293d6812a7d7cad73d3f5af0b48e41b54c3d6403e6f2383d793dd05eb2;
  0x14eda25313fcfde34387bf6173e62e3f2130e6d313ffad0f1d69a4ddc3e1f577d21e8c0893dd03cba54bb13413fb63eefbfe5eb4e3dd2871d190ea5893e361545;
  0x121a1ce4fbfde11bc9fe682733e4f387df250a94c3fe628ef7fbc4b16be32094dfc976b3c3dd0819eead3ae76bfc99a91bf43d4383dfbc78735093a383e3672f8;
  0x1b7edda62bf932760a751fa2c3df7dd25bfa3593f3f90f02b621726443e20c6e954e31b0ebddf263bc82064033fb7d0e92fabf8913de6f4b413c45e2abe452e99;
  0x15c4ea99ebef5171a101d35d53d57242d038e6cdc3ef06ce1366f4db43decb3aa878d2cf2bd93d781bbeb5bea3f845f3fc274cfd53d918bec2fcd9251bdfafc46;
  0x18f2da590be05f615cd5e82343c6752b9db4b4f473e008deb96e9865d3d52bcc94c61f986bcf5d90916e1a47a3eea995aff609f7a3cf103eacf3771efbd5db6b1;
  0x110203952bcc5bf3620ee10a43b26e721e63831f53cc0418d59815ac53c64567ee8852dbfbc06c00700dc04c93dfcdef7117adbc03c012624997b05ffbc6ef0d9;
  0x14c6f549fbb347c7473aa24803995875f7643dd623b2e8fc227dc0a393b245a2c41e66c37bac6872f281b01443cbce42f5e40203d3ac0d7087f1a0cf8bb2ea38a;
  0x167561406b9525bfa086c56fd37b3487750b43bc4394b5fa3e0164cd33993395232301a67b93538d558fee3973b2b4a240befdad0392fa8c88bbc1438b99cdcd0;
  0x102505a36b71f4e181c9cad0d35807013a82ecccf371755a4b3332b5637b13d6d1c1936b2b75304ccb3b5f9163948792683fde3ab374c5b5a08f675f7b7b9ddb5;
  0x1eefe204db499640c82cbfa9032faa9e744217d453492ece92386c38f357d66d04eb58550b52036fa83cfe63b3714de67accd86dc35182c36848c52beb5860d74;
  0x1062631e9b1c3977a1b9e3141302492dc0b10ac1c31bd34a7cf20923232f7d91a410c2239b29a4d87b63a8c763490ed4c68c5a91b32939af0606626dfb301e2e5;
  0x13581d956ae9cc3479a4050572cfe3451a6e0af812e957044e5f5c20f302266c9dfc9d81cafc44ba13288e18331ba1f46a65afbf42fbe413607f6280eb02b9a36;
  0x1e587ca21ab2416053b3cd984298517babab4f3952b1df145e998ecb02cfb03fbccf07b7cac9dcbc3df6b97d52e932cd91e11351e2c963567cf2852f8ad0442fe;
  0x1a26affc1a75ab02fd5285d8f25bc069a54bb4ca42753e46963ef5e502982dda99c276eaea924ceb85adceaa02b1ac80683fc3b49291f049b586bb393a98c4c7e;
  0x1093cf6c7275ab02ff71c4c3925be616ded0d12a52753e4697d3df3dd25b91128bb1f4100a55ba598a1aed1ab2751caca7a12e41a25549b546a6e0770a5c2ccde;
  0x1dd686e5a2b24160554ca8bd82986dd6d50c1eddb2b1df1460fb0b64d25bb2c57eee7b6372558861b92567ee02751caca90b5831d2552476d22b9b26e25c46142;
  0x1e772e9b72e9cc347bed7e7812d005f00c79d67772e957045013bf4172984737639a1b96729227502eaf84a0b2b1ac806a60e7dce291b83a19cbf1ef5298ead31;
  0x12200b89731c3977a348ae66530264d64a265a5f231bd34a7f448660f2cfd491494974dba2c9a6e21051bb8cb2e932cd9367642ef2c93b32dc8d8355c2d05f6d0;
  0x1aebb3eab3499640ca3195d2a32fce76e6f1ed6e93492ece93b9a79f83023f2998b02e25d2fc200bb419f546d31ba1f46c7968f752fbad64fcef3f38f302debee;
  0x10a4314e5371f4e1844703c263581d1a625c9454a371755a4d0e2dc0932f9da1136d9f559329754e70a9a01d53490ed4c7e4e7f8a329163fe5ff4b671330363a0;
  0x16730a7ab39525bfa1fc7aab237b4e73d3f7930cf394b5fa402e971d6357fdf3bda18a72a351cc429adde07b73714de67c75a27413515713062b214c43587e7cc;
  0x181cfe4383b347c748dba281b39975673789bfb823b2e8fc24ebd73fc37b2b0409ac29eaa3750ded0ad793fe239487926a3206f98374927540a947d9537bc0a14;
  0x1249cd1003cc5bf363c98b0ed3b28d3c42689df8e3cc0418d6e2fb2293994d6d25c3f90e13932d32313c17e8b3b2b4a242ea7a5d6392c1542a8f73c33399f49a3;
  0x15a504d1e3e05f615e94ef1fc3c6948666a2d0b823e008debabf905a33b260ff189e688013ac3fbb801ac80ab3cbce42f830194273abde01c98bbdb083b309b49;
  0x18a1bf56b3ef5171a2af1f77b3d5915f0498620b13ef06ce14b54c4343c660bf5188268ee3c042e24295b061a3dfcdef73635ab9c3bfe6c76265b47553c70c530;
  0x1b2b31b873f932760bfb0124f3df9de73b4f9c3493f90f02b77a3a3be3d544fd2bfdfab593cf3613e3dd062503eea995b213782543cee2fbd3c6f05a33d601ae9;
  0x19fc609ca3fde11bcc62798fb3e50ec050c5120f23fe628ef9bed6c083def1d08a998dc3a3d9199b872fdf0583f845f3fdc5fab913d8f2105a84785bd3dfd40b9;
  0x1ecb67b75bfcfde346106db7a3e647a45d5cfd9403ffad0f1f8b7e93c3e222fc79c609c9e3ddba1767b2c0c7a3fb7d0e94df87b8c3de45cde1a70a14b3e46f637;
  0x11b449792bfcf59320de32a083e3b50c952d3860d3fd1e2a727630a0abe338d42d5d9edd5bdcd4896b52b8fc7bfc99a91dfd693453df8a434be94f9d0be3855d7;
  0x108bce7babf673cf8c646b7fb3dcd822e02975ca13f63523c3ec214a23e20fcd2001b436fbdccce5cecaa11583fb63eefdc33099f3dd06f54aa44640ebe37f046;
  0x1075216523f673cf8c646b7fb3dcd822e031946053f63523c3ec214a43dc49286b0dcc22fbd655a84aa12c5893f5af0b4b087b8993d61c11a0b60592ebdd1becf;
  0x11ade8c093fcf59320de32a083e3b50c9524012643fd1e2a727630a0a3dc49286b090b2913d655a84b164718d3f5af0b4b087b89a3d61c11a2b2b67f53dd1becf;
  0x1f00d58653fcfde346106db7b3e647a45d5d0ad6b3ffad0f1f8b7e93b3e20fcd200f460463dccce5d297627823fb63eefdc33099f3dd06f5452ec74b13e37f046;
  0x1a00e9b1cbfde11bcc62798fb3e50ec050c6c2cdb3fe628ef9bed6c08be338d42d3ca9e6c3dcd48973c0dc5fdbfc99a91dfd693453df8a4350073f8853e3855d7;
  0x1b3e9da62bf932760bfb0124f3df9de73b4f3f8843f90f02b77a3a3be3e222fc79e164e42bddba17629b9fd823fb7d0e94df87b893de45cde3261c52dbe46f637;
  0x18a17099cbef5171a2af1f77b3d5915f04a597f833ef06ce14b54c4333def1d08a9252cf2bd9199b865eb5be93f845f3fdc5fab913d8f21061fa590f5bdfd40b9;
  0x15aaa8dc8be05f615e94ef1fc3c6948666a34d5123e008debabf905a33d544fd2c17ff320bcf3613e26cb3e143eea995b213782543cee2fbce21fc615bd601ae9;
  0x1243b978cbcc5bf363c98b0ed3b28d3c426589edd3cc0418d6e2fb2293c660bf517f855bfbc042e241cc504c93dfcdef73635ab9c3bfe6c762b22fa2fbc70c530;
  0x1819fc0cdbb347c748dba281b3997567379965a143b2e8fc24ebd73fd3b260ff189b4f75dbac3fbb80bee9faa3cbce42f830194273abde01c88d86caebb309b49;
  0x165f2015eb9525bfa1fc7aab237b4e73d3dbcfae9394b5fa402e971d63994d6d25c4edcf3b932d322f66641173b2b4a242ea7a5d6392c1542d1dafa89b99f49a3;
  0x10a3c0605b71f4e1844703c273581d1a625f47289371755a4d0e2dc0937b2b0409bdd3edeb750ded0785d886439487926a3206f9737492753e134d7b7b7bc0a14;
  0x1b02d8440b499640ca3195d2a32fce76e6f7994ed3492ece93b9a79f8357fdf3bda877e80b51cc429962e67a63714de67c75a2741351571307117e5f4b587e7cc;
  0x122590249b1c3977a348ae66530264d64a26cbdc231bd34a7f448660f32f9da1136b2580fb29754e71b5bde313490ed4c7e4e7f8b329163fe6f14c30fb30363a0;
  0x1e79b6e2dae9cc347bed7e7822d005f00c7a890192e957045013bf4173023f2998c0d2bffafc200bae5ab9cb231ba1f46c7968f742fbad64fa6a6aa46b02debee;
  0x1dc21634bab24160554ca8bd82986dd6d50a567572b1df1460fb0b64d2cfd491492fa3bdeac9a6e20d29d356a2e932cd9367642ef2c93b32dcc9070a8ad05f6d0;
  0x10a849957a75ab02ff71c4c3925be616deb81c1392753e4697d3df3de298473763988516ca9227502747672332b1ac806a60e7dce291b83a1a8924b23a98ead31;
  0x1b5569061275ab0301ba18f6625c038ad7084b8ad2753e46998767b5425bb2c57eec26d03a558861b94e2040e2751caca90b5831d2552476d4b817618a5c46142;
  0x1b41a9d932b2416057046f5f229886ac0bf8d317b2b1df14638a9fb5025bd0488d1b4830525552a288589b2f22751cacaa90e5a75254f8cea6ee84cc125c5c366;
  0x1fb261ceb2e9cc347e633ebfa2d017b7c244677c52e9570451e922dfb2985d6d73ad4ec9c291fdb986f8a2eff2b1ac806cab45ffa2917bed2a080556b29906121;
  0x14d00b89831c3977a4f5a268c3027d0f12bba6eaf31bd34a81c3f8fac2cff45f9e130e7562c96cf54eb8220222e932cd950b3997d2c9100628132fac32d07747c;
  0x101880b783499640cc5d81fbd32feddb2e5d0b88e3492ece95580525a30254d3b4c02e25e2fbf12e4833eaa2231ba1f46eb5586512fb7293deb36de69302ff3e1;
  0x132297b4c371f4e186f46d6193583074a41042819371755a4f0d1475832fb9b4bda405bc0329422c2a4339c433490ed4c95783ef7328e045ad089fa6d3304b48e;
  0x1697d747839525bfa38e72ea737b6527a1d919633394b5fa4285eccc535810489ba25ed303518d373baaad5893714de67e3e8c6e13512814df653056335898734;
  0x1c967f21c3b347c74a9c2be703998ebfdefc4b8903b2e8fc2788f98a237b3f500e6f5d1df374d1e7bf48c1a9239487926c49dc1f03745b54c3d60f53937bdf152;
  0x10a366a9a3cc5bf365a5af16c3b2a8330c2186c0b3cc0418d846e6c6e399640f1f03f90e239303f0813c17f373b2b4a2453ff953f39283c820be0ec8739a0b4a9;
  0x16936b3843e05f616075c49843c6affbdc95dd2e13e008debc2a040bc3b278f5242b354cf3ac13efd74dfb4943cbce42faa8a9fd63ab9c881484005d03b31bbdc;
  0x1af9bf56b3ef5171a47ce2cce3d5ac9dac9e5396b3ef06ce161cec8bb3c678b108eb59c233c016a813627d39e3dfcdef75db792ad3bfa41a1614868373c71e89b;
  0x1d3664ebb3f932760d9e5ec743dfb9ffa89a92cdd3f90f02b8ed150e93d55b0c874dfab5b3cf0b9abbdd063013eea995b459d87593cea0d3986cc99ef3d6132c5;
  0x1d4dfa3643fde11bcef4d4a7d3e521212de68fcce3fe628efba40592b3df09cd8d1993aeb3d8e61184c6248593f845f3ff8404aaf3d8add760d6ab8253dff3d0d;
  0x160b67b75bfcfde348ca2a91c3e65de1d3167e2d53ffad0f21d69fff03e236bcf6dfa363c3dd7d890ae5f40c63fb7d0e96e8f95363de192d457b9eaff3e488539;
  0x19132fdf8bfcf593238c8f4b73e3d2b737c1cafac3fd1e2a73fdc8876be34e103a0d9edd4bdc945bb352b8df7bfc99a9202dff1213df54421dbed8107be39fcb8;
  0x1c08ef487bf673cf8e61360553dcf82f38b0f18813f63523c593294553e222403c4c8103cbdc8dc40e576de193fb63eeffaa412023dcc5e0dd8ebfd3abe399041;
  0x1c0b87cb93f673cf8e61360553dcf82f38c646e833f63523c593294563dc5f803817d5bc9bd626dbc9aac5f223f5af0b4d56545813d5ea510c414a77ebdd2f32b;
  0x1927825a33fcf593238c8f4b73e3d2b737b7d0a143fd1e2a73fdc88763dc5f80380c3e5c63d626dbc3e313f1d3f5af0b4d56545803d5ea510c4b9a58c3dd2f32b;
  0x16073becc3fcfde348ca2a91d3e65de1d3188385e3ffad0f21d69fff03e222403c3c12d153dc8dc40dca95bc73fb63eeffaa412013dcc5e0de4d624c83e399041;
  0x1d4b834b5bfde11bcef4d4a7e3e521212dea566943fe628efba40592bbe34e103a03104d03dc945bb08da95a4bfc99a9202dff1203df5442192f79f0c3e39fcb8;
  0x1d3df40c8bf932760d9e5ec733dfb9ffa8a903fb83f90f02b8ed150ea3e236bcf6efcb4a9bdd7d890e4ed30983fb7d0e96e8f95373de192d4501fad82be488539;
  0x1afb5519cbef5171a47ce2cce3d5ac9dac8e2d4073ef06ce161cec8bb3df09cd8d14afcdfbd8e61181da3849c3f845f3ff8404aaf3d8add762912a21dbdff3d0d;
  0x1690559fbbe05f616075c49843c6affbdc79c91723e008debc2a040bc3d55b0c8757f9320bcf0b9abf0e33e143eea995b459d87583cea0d39113e9d05bd6132c5;
  0x10a9b7f43bcc5bf365a5af16d3b2a8330c19037ad3cc0418d846e6c6e3c678b108e4b2425bc016a81105e6b2f3dfcdef75db792ae3bfa41a14e0c44dbbc71e89b;
  0x1c974ce12bb347c74a9c2be703998ebfdf0253e6e3b2e8fc2788f98a33b278f52432579eabac13efd569134773cbce42faa8a9fd53ab9c88170e0ac93bb31bbdc;
  0x168e83d4ab9525bfa38e72ea737b6527a1c9e2f6b394b5fa4285eccc5399640f1f0a71abab9303f08180acffd3b2b4a2453ff953f39283c81ac2c6d85b9a0b4a9;
  0x131d5eb07b71f4e186f46d6183583074a41f8e749371755a4f0d1475937b3f500e7adb21fb74d1e7bc2cf0b1839487926c49dc1f13745b54c16efadc0b7bdf152;
  0x101f63df3b499640cc5d81fbd32feddb2e5a1cb0f3492ece95580525a35810489ba356c2eb518d374097abe9a3714de67e3e8c6e23512814db2947b92b5898734;
  0x14d589896b1c3977a4f5a268b3027d0f12d3d9fd931bd34a81c3f8fad32fb9b4bd9f56c5db29422c2b399c51c3490ed4c95783ef7328e045aeb90bc07b304b48e;
  0x1fb4e9c49ae9cc347e633ebfb2d017b7c244522762e9570451e922dfb30254d3b4da4f467afbf12e3cb33feb531ba1f46eb5586502fb7293e16f20cafb02ff3e1;
  0x1b3f717d0ab2416057046f5f229886ac0be79e7d52b1df14638a9fb4f2cff45f9e1188e31ac96cf54f901e9fb2e932cd950b3997d2c91006280c13cbaad07747c;
  0x1b59e32eba75ab0301ba18f6625c038ad707a9a332753e46998767b522985d6d73ab55b08a91fdb98828657702b1ac806cab45ffa2917bed29a12750ea9906121;
  0x18a7029fa275ab030425e1d3925c118a5d4341afe2753e469b555d85725bd0488d0ac129ca5552a28881536632751cacaa90e5a75254f8cea3d7ea7afa5c5c366;
  0x1a4b4372d2b2416058d6e541b2989bbe171ef814e2b1df146641fb74325be952f41814fd425519a0778bce7112751cacac2e1638f254a3d310e7f2ebf25c6efe3;
  0x17ba61ceb2e9cc3480ff354252d026cdd8f1936562e9570453db01be12987046076a1b96a291a7ea0d5f096c82b1ac806f19387862913bf79c1459c7d29914348;
  0x1d0005c4c31c3977a6bc9d8ea302919c6303135c631bd34a846a386ec2d007ae28d9873ac2c92f84c6b8221202e932cd96c8887bd2c8c47590ee501e32d08b855;
  0x13b54d8453499640ceab298f3330043ef2c94bb3b3492ece970f8735a302673588d02e2602fb9d7b6833eab7c31ba1f47113fbf912fb343137d793c6e3030d686;
  0x1550fe1b3371f4e189cb6dd9b35840e0496b3a07c371755a512afb3e532fd1876a2a6c2283290bef9bdcd36bc3490ed4cae09cc0c3288f6b918c948b03305d26f;
  0x132ca414539525bfa538cf27b37b786ae693f5745394b5fa4501a03d63581ef80d4bf86ca3514a587c777a36a3714de680232fdfc350ec7950c4ba346358ae7ac;
  0x10e1b25503b347c74c77eca33399a44170df513633b2e8fc2a4eb5d0637b5088d602905133748378b8e25b56f39487926e82349df37420dbe8ca1516237bf8ebe;
  0x147b66a9a3cc5bf3679eb73ef3b2bf14017412b8a3cc0418d9c06b1ac399774342ad92a7d392b05bef44fcca43b2b4a247b9b97cc3924280006a9de9c39a19b52;
  0x17b9d19eb3e05f616273c717b3c6c7484ce4470d83e008debdaa75e1c3b28d49d3eb354d13abcaf7b69bf6aa83cbce42fd479caa33ab57154d5d5314a3b32b0b6;
  0x126cf289f3ef5171a666aaec63d5c3bb9c9db08963ef06ce179a5f13a3c68d020c5e8cf573bfcf7dd05e9425a3dfcdef7879f29eb3bf5d61158d2662d3c72dfdf;
  0x1ee4cc0f73f932760f5b2ea003dfd1d65f9ff52aa3f90f02ba76708c63d56dc443a7944f63cebd1bb486d94433eea995b6c38f1b53ce5aa7bc366fea23d62203b;
  0x10bdfa3643fde11bd1af224fd3e530b937a8e837e3fe628efda6a4fa03df18238406607b93d8943d7b2c8b0133f845f4015d1f26d3d8657a96a21fd643e00762e;
  0x114e9aea8bfcfde34bae3db8d3e670c0ad9d181c73ffad0f24456199a3e2477f5a9fa36403dd3d4e2ae5f41ee3fb7d0e99120ec4d3ddd3aeeb322f6df3e49d7c8;
  0x1b27afdf8bfcf5932664918ee3e3ebe333e1907dd3fd1e2a759d233dabe36014ab7a6ba9fbdc504939b91f274bfc99a9228098c873df1afa1ef227c68be3b6387;
  0x14b67daedbf673cf907cdfd7d3dd09b04535e811b3f63523c753dc66b3e231e7c16e8103cbdc4acda5976de0d3fb63ef01aedf7603dc79782d7b40d5dbe3af136;
  0x14b6bafec3f673cf907cdfd7d3dd09b045328f7d93f63523c753dc66b3dc72756c0b02895bd5ea70b707257dd3f5af0b4fc7f78763d597c5fc8a28e3abdd3f8d0;
  0x1b2c4f2703fcf5932664918ee3e3ebe333e6f69ef3fd1e2a759d233db3dc72756c15d7f613d5ea70b492f4ca23f5af0b4fc7f78763d597c5fe93a0bc53dd3f8d0;
  0x111408b993fcfde34bae3db8e3e670c0ad9d357d53ffad0f24456199a3e231e7c1827937d3dc4acd9f642f6813fb63ef01aedf7603dc79782604b6eab3e3af136;
  0x10b850182bfde11bd1af224fe3e530b937ac75f373fe628efda6a4f9fbe36014ab6fdd19a3dc50493a2743241bfc99a9228098c863df1afa18c021c283e3b6387;
  0x1ee972064bf932760f5b2ea003dfd1d65fa0029d33f90f02ba76708c43e2477f5aa2fe7dcbdd3d4e2fe86ca133fb7d0e99120ec4e3ddd3aeec98fc80ebe49d7c8;
  0x126d1599cbef5171a666aaec63d5c3bb9cad3cf2c3ef06ce179a5f13a3df182383fd8fcdfbd8943d80da384993f845f4015d1f26d3d8657a978e0ab62be00762e;
  0x17bf3cefbbe05f616273c717b3c6c7484ce99cec83e008debdaa75e1d3d56dc443aa93320bcebd1bbc9c67c273eea995b6c38f1b53ce5aa7b5d9253efbd62203b;
  0x1483f890cbcc5bf3679eb73ef3b2bf1401681db833cc0418d9c06b1ac3c68d020c5ab1025bbfcf7dcea5fd65e3dfcdef7879f29eb3bf5d610f7cb616abc72dfdf;
  0x10e4978b2bb347c74c77eca32399a44170d988a863b2e8fc2a4eb5d063b28d49d3ebbecddbabcaf7ac528ef553cbce42fd479caa33ab571551697492fbb32b0b6;
  0x13292bdbdb9525bfa538cf27b37b786ae68c40ff4394b5fa4501a03d6399774342a15cb7fb92b05bf13320c2e3b2b4a247b9b97cc392427ffe80075ecb9a19b52;
  0x1546b92a8b71f4e189cb6dd9b35840e049587c7c4371755a512afb3e537b5088d5fceae5ab748378bfba4883839487926e82349e037420dbeb8e530d0b7bf8ebe;
  0x13bbebdd6b499640ceab298f3330043ef2cc693713492ece970f8735a3581ef80d5023bb2b514a587bb5d4a4b3714de680232fdfc350ec79519bf483eb58ae7ac;
  0x1d02c1483b1c3977a6bc9d8e9302919c630c4ef1d31bd34a846a386ec32fd1876a20a4bbeb290bef9cbc4673c3490ed4cae09cc0c3288f6b8e4af9754b305d26f;
  0x17bce96e8ae9cc3480ff354252d026cdd8f9532622e9570453db01be1302673588cf750b7afb9d7b64b0ed03a31ba1f47113fbf902fb343132eb72de2b030d686;
  0x1a490b12bab2416058d6e541b2989bbe171fe89742b1df146641fb7422d007ae28cc1fd0eac92f84c790020192e932cd96c8887bc2c8c4759618d13daad08b855;
  0x18ab7cc7fa75ab030425e1d3a25c118a5d36f49132753e469b555d8572987046076aaa697a91a7ea0e8ec95242b1ac806f19387852913bf7970f30029a9914348;
  0x1b3f029fb275ab0306af2753d25c1ce77f1855fcf2753e469d394dc1c25be952f414376d8a5519a077b4868ac2751cacac2e16390254a3d318b489338a5c6efe3;
  0x131cdd0c72b241605abf8c5fd298acd90425d922b2b1df14691a6c48a25bfda6f77814fd5254bbd00f179d00e2751cacaddeef3732544acc6c4ad112625c7e3d3;
  0x1fc0c83522e9cc3483baf330f2d0330d1ec90512e2e9570455e49066c2987f92a836e86382914e0563c56fea02b1ac8071a4c1eaa290f1ede4bebce7b2991fae0;
  0x1b899f5e631c3977a8993e1fe302a24b8fb1a280c31bd34a8730bc9282d012a26d7b20d462c8de4fef09dddec2e932cd989b06fba2c864835de4c3e4b2d09bf3b;
  0x18d080b783499640d114dece03300f0eb0e21c8073492ece98dbf23d33027621c2ecfaf2e2fb45cd169a5134b31ba1f4738f7c14a2fae5ad4eb93fece30318999;
  0x177a97b4c371f4e18cc504cda3584e34d69baf861371755a5362aa17432fe4de5d4405bc4328a63cbc8673c193490ed4cc7c694693283ab88cc2727f63306ba83;
  0x13cfeba3c39525bfa6f7743a837b880e241b99cbf394b5fa479b922b43582ae3ff4a5ed32351044b53aaad7be3714de6821ee1f2e350840ae66863e09358c05cf;
  0x1e49b25503b347c74e6a4fc80399b5b6e7873322d3b2e8fc2d363646c37b5e83ea6f5d1e1374314e7748c1d28394879270d597407373c735d1570f6a837c06f2e;
  0x133366a9a3cc5bf369afc669f3b2d1a6bababbd753cc0418db4be561a39986da383d92a7e39254acd744fce1d3b2b4a24a51a061a391fc3970c12f04439a25691;
  0x1f7504d1e3e05f61648a0d3aa3c6da3247013bcf23e008debf3d320b03b29dcb083b354d23ab69a4269bf6c393cbce4300067b1e53ab0e54aa405d5f83b33777c;
  0x17fb58f053ef5171a867c05193d5d67fd6affbd5f3ef06ce1929f76d53c69d804538268f23bf6d34a52b610bb3dfcdef7b38521543bf134a9f3411ab83c73a89a;
  0x137665a913f93276112d280963dfe5309a72b9aee3f90f02bc1282eaa3d57cf63b3ac782a3ce5eb88e2072f613eea995b94aa92a53ce11252fa4ded6e3d62e100;
  0x19492d6973fde11bd48aa8eb73e53d61fbf7ef7b83fe628effc1c03373df23c6d2232d4873d83e84e992f17dd3f845f4034cbbc693d819ac7ce3a15343e012541;
  0x167e9aea7bfcfde34eb5869433e6801266c2f751a3ffad0f26d1c408b3e2551a52d2d69773dcf409d298b53133fb7d0e9b55747853dd708247e1b1e533e4aea9f;
  0x149d7cac5bfcf593295f3691c3e400293d3b634fd3fd1e2a775040bdabe36eb5158a6ba9dbdc08f969b91f075bfc99a924ef7c66b3debdf0ca791db60be3c86cf;
  0x19c679aedbf673cf92b2367803dd14b9e578d82413f63523c929e872b3e23e9d17201a9d6bdc04a7af310779a3fb63ef03cc11ecf3dc296ce28d4c1ecbe3c0fbf;
  0x19c9ee31f3f673cf92b2367813dd14b9e57cfe00c3f63523c929e872b3dc81d94a1a52895bd5827099af257db3f5af0b52575ea293d5414d9180dfd46bdd4cd37;
  0x1495e8c0a3fcf593295f3691c3e400293d3465fd83fd1e2a775040bdb3dc81d94a1f718fc3d58270995fc1b1c3f5af0b52575ea293d5414d9587f849b3dd4cd37;
  0x16ba6f2003fcfde34eb5869423e6801266d0896223ffad0f26d1c408b3e23e9d172f4604c3dc04a7aa9762ae13fb63ef03cc11ecf3dc296cd7f68056c3e3c0fbf;
  0x195550182bfde11bd48aa8eb73e53d61fbf7e63c83fe628effc1c0338be36eb51596437fe3dc08f966f410232bfc99a924ef7c66c3debdf0d10d86c703e3c86cf;
  0x1372ed397bf93276112d280963dfe5309a7077dfc3f90f02bc1282eaa3e2551a52cafe7ddbdcf409ead0d93e63fb7d0e9b55747873dd7082508e828d5be4aea9f;
  0x17fe1a669bef5171a867c05183d5d67fd6aa5384e3ef06ce1929f76d53df23c6d21a56346bd83e84e9d7051643f845f4034cbbc6b3d819ac7fbd20e3dbe012541;
  0x1f6e0ddfbbe05f61648a0d3a93c6da3246f671c023e008debf3d320b03d57cf63b4554cb9bce5eb897f49af5b3eea995b94aa92a53ce112537b5809f9bd62e100;
  0x133b531d9bcc5bf369afc669f3b2d1a6bacf944793cc0418db4be561a3c69d80452564025bbf6d34a3314d65e3dfcdef7b38521543bf134a9e63a9f9cbc73a89a;
  0x1e45d7e72bb347c74e6a4fc80399b5b6e78b4572b3b2e8fc2d363646d3b29dcb08408b677bab69a423e4422883cbce4300067b1e53ab0e54ae8fa4090bb33777c;
  0x13d72e67fb9525bfa6f7743a737b880e24225f8c3394b5fa479b922b539986da3842643d4b9254acd4b35e2c73b2b4a24a51a0619391fc3970d1eae16b9a25691;
  0x177b0f72ab71f4e18cc504cda3584e34d6861f06a371755a5362aa17337b5e83ea73accfcb74314e6eca99f15394879270d597406373c735cddbaebd8b7c06f2e;
  0x18e6d74ecb499640d114dece03300f0eb0ea835df3492ece98dbf23d23582ae3ff4741916b51044b5527ecc813714de6821ee1f2e350840ae00846208b58c05cf;
  0x1b94573f1b1c3977a8993e1fe302a24b8fbb5d61431bd34a8730bc92932fe4de5d414ab90b28a63cb615834333490ed4cc7c694693283ab887b1be115b306ba83;
  0x1fc34f7b3ae9cc3483baf33102d0330d1ec736d0f2e9570455e49066b3027621c2f640eb7afb45cd1b14e700431ba1f4738f7c1492fae5ad528b3003fb0318999;
  0x131aa4a83ab241605abf8c5fd298acd904189af4a2b1df14691a6c48b2d012a26d7831467ac8de4ff0b961ec72e932cd989b06fb92c864835cb098ce4ad09bf3b;
  0x1b437cc7aa75ab0306af2753d25c1ce77f0dede8b2753e469d394dc1c2987f92a830eb7e7a914e0564f52d1182b1ac8071a4c1eaa290f1ede69549291a991fae0;
  0x1c6235d2e275ab03094fa8bcc25c25863831941d92753e469f2e8f4d625bfda6f7628cb17a54bbd00f690cf702751cacaddeef3732544acc68056e415a5c7e3d3;
  0x1b8b4372e2b241605cb9affd7298b9d2a6d4124b92b1df146c0cee48e25c06893c70d74b825440193be469ed52751cacaf9f457b3253dd2cca3dcdd8925c89cdd;
  0x1543fb6852e9cc34868fbb6312d03c57620a7458d2e957045800c8fe22988b2d9dfa1b96c290e1d28abe1336f2b1ac8074479c06829067211b8f82f9d29928623;
  0x1e066c2b331c3977aa86ed066302aef3765e95dbd31bd34a8a10adad82d01af19b3feda142c858fb0bd6aacdb2e932cd9a7e36fcb2c801222c2ef29d32d0a86a8;
  0x1cc3b3eac3499640d394aecf2330174229d1517453492ece9ab8d71c730281739893615952fad5f7239b08fe431ba1f47621b9f142fa5e4adf5b7cc133032116f;
  0x125c314e6371f4e18fd9dc99b35858516e3c2a5fd371755a55aea96c832ff389e8dd9f55f3283089715340ac83490ed4ce26f23ef327c5fb7dcb7fa7b33076a8e;
  0x1ea1853d639525bfa8c614f8237b93eacd1b3f3df394b5fa4a4d58c0e35833ef0d38c53993507778edbbc18343714de6842cbef8835017dfc40f9fce0358cdedc;
  0x1a2b4beea3b347c7506e88999399c2f537a3737633b2e8fc303851e2037b691ed41c29eaf373b866db5e509d63948792733e48263373485173c55b87537c0ee78;
  0x1bce99dce3cc5bf36bd3c43d43b2dfbd6d55adb713cc0418dce58696839992ad902a5f74c391eb6bbb56c6c123b2b4a24d01493663916e8de64166c6939a2e49b;
  0x1f5e9e6b83e05f6166b371cb53c6e88b29296c3d23e008dec0de579e23b2aa501004cee6d3ab04d4fb68c3aa33cbce4302de807b63aa85f31bcca566b3b340e43;
  0x178025bd23ef5171aa7b320533d5e4bc1645fff563ef06ce1ac7dc6d83c6aa0309e4f35c13bf07672b91c78c23dfcdef7e0fd3e983be8d1ae933177fa3c7440de;
  0x1257ff42b3f93276130fce30c3dff3dea30d5661c3f90f02bdbd543b53d5887cf7b12de923cdf9e972a74c8493eea995bbe8eb41b3cd8a0275f7281a03d63733a;
  0x1d5ac70313fde11bd7805cf5e3e546fc44e7ffb113fe628f01f0261fb3df2c9ac61ffa1553d7cb760ff2aff633f845f4054e14a623d7964fdb850f6013e01aa0e;
  0x143b67b74bfcfde351d88dbd13e68bb13a05c2b1d3ffad0f29757ee503e25f6c54ac703153dc68a678ff1bbf63fb7d0e9dad95f853dd09c902972afb83e4bbb1a;
  0x1ee4e312cbfcf5932c752616c3e407e95514613773fd1e2a7912f0496be379cd69fd9edcebdb7e3986a570fffbfc99a92774aa3eb3de41a1f7ab5dd79be3d63c3;
  0x108ffdaedbf673cf94fbc819f3dd1d1946c1bdf773f63523cb10c68c43e24840e8e0e76a3bdb77fe0bfba88b43fb63ef05fca23de3dbad087b6d2260fbe3ce918;
  0x107d216533f673cf94fbc819f3dd1d1946b92a2a43f63523cb10c68c33dc8d85e0afe2895bd516b7dab7257da3f5af0b54fe39d193d4cf7a0f86d97dabdd56e56;
  0x1eec4f2703fcf5932c752616c3e407e95510cbdef3fd1e2a7912f04963dc8d85e0a90b2973d516b7de2c8e9a43f5af0b54fe39d193d4cf7a00a0281343dd56e56;
  0x141408b9b3fcfde351d88dbd23e68bb13a06bdbbf3ffad0f29757ee523e24840e8e2793823db77fe0ec85f1ca3fb63ef05fca23df3dbad088074d804a3e3ce918;
  0x1d451ce4fbfde11bd7805cf5e3e546fc44e5a66683fe628f01f0261fbbe379cd69efdd1953db7e39944e87145bfc99a92774aa3ea3de41a1fbdb180853e3d63c3;
  0x1258f6d31bf93276130fce30c3dff3dea3031bd253f90f02bdbd543b33e25f6c54d631b10bdc68a67e040c6d73fb7d0e9dad95f863dd09c905b949321be4bbb1a;
  0x177f77b36bef5171aa7b320523d5e4bc1629c18d53ef06ce1ac7dc6d83df2c9ac624c9679bd7cb76111ad6f8f3f845f4054e14a623d7964fd5e78e299be01aa0e;
  0x1f5ee58c8be05f6166b371cb53c6e88b2934e6e8b3e008dec0de579e23d5887cf7a5d4653bcdf9e967119c51b3eea995bbe8eb41b3cd8a0279895c319bd63733a;
  0x1bbf55e33bcc5bf36bd3c43d43b2dfbd6d504dca63cc0418dce5869683c6aa0309f7c69bfbbf07672116609913dfcdef7e0fd3e983be8d1af1201454cbc7440de;
  0x1a1f8c020bb347c7506e8899a399c2f537a27482a3b2e8fc303851e1f3b2aa500ff132a2abab04d4f93b718ee3cbce4302de807b63aa85f31da049463bb340e43;
  0x1ea04c07fb9525bfa8c614f8237b93eacd28b4c89394b5fa4a4d58c0d39992ad9031a190fb91eb6b9bac35a5c3b2b4a24d01493663916e8ded9bf5938b9a2e49b;
  0x12573b4f9b71f4e18fd9dc99b35858516e462bbc2371755a55aea96c837b691ed421395cab73b866d9bcb400a3948792733e4826237348516f6a56f86b7c0ee78;
  0x1cc9c07ddb499640d394aecf2330174229dab5e313492ece9ab8d71c635833ef0d36bcdf3b507778ed17c25283714de6842cbef8835017dfc566146ffb58cdedc;
  0x1e09204bdb1c3977aa86ed065302aef3766310ec031bd34a8a10adad932ff389e8dd8f894b28308972b0f80d63490ed4ce26f23f0327c5fb7fa6d0504b3076a8e;
  0x15568251dae9cc34868fbb6322d03c576209901a82e957045800c8fe1302817398b16dd68afad5f72c8b3482731ba1f47621b9f142fa5e4ae502e086ab032116f;
  0x1b890b0a6ab241605cb9affd6298b9d2a6d5a817a2b1df146c0cee48e2d01af19b38deec6ac858fb0d85f127b2e932cd9a7e36fcb2c80122364174635ad0a86a8;
  0x1c76affa7a75ab03094fa8bcc25c2586382b7400e2753e469f2e8f4d72988b2d9de95cc70a90e1d28d1d87dd52b1ac8074479c067290672119f360bc0a9928623;
  0x191bcf6c8275ab030c00ec0c625c2b51483ab46722753e46a1304e5a025c06893c71a1024a5440193c35d9a442751cacaf9f457b3253dd2cc768525e3a5c89cdd;
  0x1e14dd0c72b241605ec070422298c28b0214e1d0b2b1df146f123d47225c0bb7ba3f3db202538299f495a0e822751cacb16ac7ae42532027cbbe301a325c91939;
  0x1d63fb6852e9cc34897692f482d04295bafe444852e957045a2a77a5229892fa4be6e863a29022f6978ae03472b1ac8076fb4701028fb1be12de626cf2992e3bb;
  0x16266c2b331c3977ac80e91f4302b774e336c067931bd34a8d02f557f2d02087359feda152c7a0a757ad55e112e932cd9c6d713c72c7368e1d7324cd82d0b0cae;
  0x1ef54d8463499640d624702ab3301cc5257197c7c3492ece9ca19e150302890f2163615972fa1bcd839b092dc31ba1f478c45eb752f9a7119eefb41cb30326cba;
  0x13d8fe1b3371f4e193025c69d3585f1d2255164cd371755a58094f95032ffd65e1ca6c22d3276fceaf734e6353490ed4cfdc1c1373271226937e99ba23307e0de;
  0x14bcb870939525bfaaa03cce337b9be3a2a780bd7394b5fa4d104f67a3583a02eb63f86cd34fc57b01dde9b8d3714de68647b677434f52054eaf2684c358d70bb;
  0x119e7f21d3b347c7527f9e63a399cbdbbaae7d7a13b2e8fc334d9dfe637b703f6d75c384a37309f314f7ea637394879275b656e883728c878d376145637c14405;
  0x125e99dce3cc5bf36e0569b173b2e9355d191dbcd3cc0418de895cd0c3999aa022c3f90e739128c274f0608c63b2b4a24fc2149ca390bab5c5e57da9239a34411;
  0x1118380523e05f6168eaa07173c6f22f943805d523e008dec289e22a43b2b2ba0d74cee6e3aa3b05e6d1878903cbce4305c8a9e0f3a9d6f75183fd6c43b347399;
  0x18b358f063ef5171ac9be1cb73d5ee4d42884b4eb3ef06ce1c7011a773c6b26b8241c028f3be3e20b3f05c1a53dfcdef80f9767f23bddf9bb0884f4703c74a734;
  0x14ee65a913f9327614fe7b2773dffdbc47ee76a213f90f02bf72c83593d5903c0e1ac782d3cd31828c40e65153eea995be97e0e9d3ccdbde8efd724013d63d580;
  0x1d1793cfe3fde11bda88f26083e54d7065d4d4a163fe628f042c760f13df32899c332d48a3d715759325e35823f845f4075c3827b3d6eaba188a74bb43e02034e;
  0x1dcb67b73bfcfde3550f976643e6938081032b4073ffad0f2c2a1039a3e2665bef793cfe73dbb39418649e3673fb7d0ea014abb163dc4101339f9679f3e4c4737;
  0x1c2e9645fbfcf5932f9ec49843e40d1ec5e2847b03fd1e2a7ae0dabfcbe381424cad9edccbdacda26d4ae1797bfc99a92a09ebac53dd8474553779f6ebe3df841;
  0x153bd67babf673cf9753f11153dd22b9c4854cf7b3f63523cd03c65e03e24ebb72054dd09bdac61bd890eaacd3fb63ef083b2a6263db03159146d1d0cbe3d7b2b;
  0x152b87cb93f673cf9753f11153dd22b9c483bc0ab3f63523cd03c65e03dc955e67934c22fbd4509fe534b16183f5af0b57b5ff69f3d417e25e4584770bdd5da9e;
  0x1c2f825a43fcf5932f9ec49843e40d1ec5deace103fd1e2a7ae0dabfc3dc955e678c3e5cc3d4509fcf8c50a033f5af0b57b5ff69f3d417e25eb7fe1543dd5da9e;
  0x1de0d58683fcfde3550f976643e6938080fd3cf0d3ffad0f2c2a1039a3e24ebb71fc12d1d3dac61bd72a582223fb63ef083b2a6263db0315984b8585f3e3d7b2b;
  0x1d13b67e9bfde11bda88f26083e54d7065d2fd5b33fe628f042c760f1be381424cbca9e5f3dacda24f037562cbfc99a92a09ebac43dd8474530a769e03e3df841;
  0x14ebfed31bf9327614fe7b2773dffdbc47e76bda13f90f02bf72c835a3e2665bef7498177bdbb39452d4e59f43fb7d0ea014abb163dc41012c912e012be4c4737;
  0x18b008802bef5171ac9be1cb63d5ee4d4285b72fd3ef06ce1c7011a773df32899c38e9679bd71575a51ad6f8a3f845f4075c382793d6eaba1c2f26a14be02034e;
  0x11181842fbe05f6168eaa07173c6f22f9433a19243e008dec289e22a43d5903c0e1441fedbcd3182a27c02b813eea995be97e0e9e3ccdbde6e04e65bdbd63d580;
  0x1261dfe79bcc5bf36e0569b173b2e9355d199ae433cc0418de895cd0c3c6b26b823e1a68bbbe3e20b3c5d46563dfcdef80f9767f23bddf9bb5e3aabdabc74a734;
  0x11a1a31bfbb347c7527f9e63a399cbdbbaa00df9a3b2e8fc334d9dfe63b2b2ba0d76d9477baa3b05e0843e5103cbce4305c8a9e0f3a9d6f75cf20a457bb347399;
  0x14b9fff02b9525bfaaa03cce337b9be3a2bf084ce394b5fa4d104f67a3999aa022cacb5d3b9128c253cb033293b2b4a24fc2149c9390bab5c2af347ffb9a34411;
  0x13de7d56cb71f4e193025c69d3585f1d225a0ae1f371755a58094f94f37b703f6d7d772b4b7309f321573f203394879275b656e873728c8791ee0909fb7c14405;
  0x1f0b0e876b499640d624702ab3301cc525749bc153492ece9ca19e14f3583a02eb5cf6185b4fc57b0932391b33714de68647b677434f52054ff5db567b58d70bb;
  0x16291c77bb1c3977ac80e91f3302b774e3524c62e31bd34a8d02f558032ffd65e1c97a695b276fceb1c9fd0e03490ed4cfdc1c13832712269cd9509f5b307e0de;
  0x1d6681f36ae9cc34897692f492d04295bb0af8eb12e957045a2a77a51302890f2180abfb5afa1bcd6c8619e0831ba1f478c45eb742f9a711a8ffb631ab0326cba;
  0x1e12a49f9ab241605ec070422298c28b020f0e4df2b1df146f123d4732d02087359a4b23eac7a0a74b0b6499d2e932cd9c6d713c72c7368e33b954c45ad0b0cae;
  0x19204993ba75ab030c00ec0c625c2b514837f83fa2753e46a1304e59f29892fa4bdcb7148a9022f699ea4f13e2b1ac8076fb4701028fb1be106f0a10ca992e3bb;
  0x17cbcf6c8275ab030ebc4df0125c2e3a66c12b3e12753e46a339984dc25c0bb7ba43a275ca538299f5387fd4f2751cacb16ac7ae42532027d818a6307a5c91939;
  0x1ee8103fb2b2416060cece3d8298c6ec96748dfdf2b1df147222e6bbb25c0e522eaf3db212520291092b425312751cacb33d08eea2518172a6c7e644325c957b4;
  0x11bbfb6852e9cc348c68527a22d045b8c590e3d532e957045c5c474c829896e5779081fd528e85340491e7fce2b1ac8079b91999828e221844dd3e0d7299312c1;
  0x12e4d291931c3977ae8252f36302bbbade5224b2431bd34a90004ff3b2d02355784feda162c616aa8f5aac4f12e932cd9e63f0c932c59f69191f833ac2d0b5005;
  0x1466e71df3499640d8bdd22a33301f8a0d11e25983492ece9e91921c43028ce19c16948cb2f87ba01b38f243d31ba1f47b70eb1f42f81af4e6eadaa9530329a98;
  0x124c314e7371f4e19636baf3a358628731e564ebd371755a5a6ccec85330012cfcab9c77e325ebfef1006db963490ed4d197b0f963256eb764dd70f3c33081c50;
  0x177cb870939525bfac815abe937b9fe4fd7405689394b5fa4fdda72953583d109e20c539b34e2f4bf6ef073e43714de6886a97a7a34dc4263c5feaeb2358dba05;
  0x1f6b4beea3b347c7549878bb9399d0547f91d68873b2e8fc366e80a8d37b73d42435c384b37163bed3dfaa41c39487927837ad3db3710934c67b362a037c16f00;
  0x19e1cd1013cc5bf3703f4e14d3b2edf73242f32b93cc0418e0335cfd63999e9e584a5f74f38f8cf4ed5b1c93d3b2b4a2528d38f6f38f2817b4b87781739a37406;
  0x100504d1f3e05f616b2a22d533c6f707c288913d03e008dec43bb39d93b2b6f4424e6880a3a8a56301ac855fa3cbce4308bdc7b4e3a83afda7ebcd8e93b34a682;
  0x1739bf56c3ef5171aec490c2b3d5f31bc5ae9676f3ef06ce1e1e814183c6b6a4f388268f73bca989e95b0ada13dfcdef83ee0b8873bc40c562845ecfc3c74da9e;
  0x1aa7ff42b3f9327616f46b5833e001589b5d6e0653f90f02c12ea857f3d59420659dfab623cb98a9bdd066e0d3eea995c150ec7dd3cb3e454ec3506f53d6406e0;
  0x113f93cff3fde11bdd9cee9093e550ae756b0e1c03fe628f06712d0403df3584b3fffa1583d57323bfcac150c3f845f409721523f3d54834fcce063413e023025;
  0x12283483fbfcfde35852b66da3e6976cfaaa0ae963ffad0f2ee8cc8e03e269d807f93cfeb3da2352f0c93d1123fb7d0ea284c93303daad631a5b934a33e4c8d9d;
  0x1a43fcac5bfcf59332d44608e3e40fbcb82109acc3fd1e2a7cb58d4fabe385015c70d20febd934bfa7628eafebfc99a92ca8e26a33dc03ce1f6e0bc73be3e42dd;
  0x187968e21bf673cf99b4e9b8a3dd258d7f92bc7343f63523cefe19a9e3e251fcb9b61a9d6bd92fb74b883bb953fb63ef0a8221e423d95a8f41e1a5f4abe3dc48f;
  0x187b87cba3f673cf99b4e9b8a3dd258d7f8db60353f63523cefe19a9e3dc994f86e788efcbd2c24887df925213f5af0b5a77fc0d13d276626b7dfa6d7bdd61105;
  0x1a4ab58d73fcf59332d44608d3e40fbcb81c365fe3fd1e2a7cb58d4fb3dc994f86dc3e5cd3d2c2483e31436523f5af0b5a77fc0d13d276625abfd1b853dd61105;
  0x123a6f2033fcfde35852b66db3e6976cfab6b529b3ffad0f2ee8cc8e03e251fcb995ac6b93d92fb72187e417b3fb63ef0a8221e403d95a8ef40b65fcf3e3dc48f;
  0x114050182bfde11bdd9cee90a3e550ae7572e6d843fe628f06712d040be385015c56437f53d934c037a0860b1bfc99a92ca8e26a33dc03ce1a002fb303e3e42dd;
  0x1aa7ab9febf9327616f46b5833e001589b4fa081d3f90f02c12ea857f3e269d80832fe7debda2353274364c733fb7d0ea284c93303daad6329cca84c9be4c8d9d;
  0x17367b336bef5171aec490c2b3d5f31bc5c4b64913ef06ce1e1e814173df3584b3f183013bd57323fd84f57af3f845f40972152403d5483512c166adabe023025;
  0x100acab62be05f616b2a22d533c6f707c28179e5c3e008dec43bb39d93d5942065ad06653bcb98a9c1ae714693eea995c150ec7dc3cb3e4556b365670bd6406e0;
  0x19e44aff6bcc5bf3703f4e14c3b2edf7324f0470c3cc0418e0335cfd53c6b6a4f3752d8f2bbca98a482437fbf3dfcdef83ee0b8883bc40c56632b4235bc74da9e;
  0x1f6c36e58bb347c7549878bb9399d0547f8b3243f3b2e8fc366e80a8c3b2b6f44243596d0ba8a5630ef6cadd93cbce4308bdc7b4e3a83afdb3083b814bb34a682;
  0x177ff75bdb9525bfac815abe837b9fe4fd877845e394b5fa4fdda72953999e9e584d1bb6fb8f8cf4f240404a23b2b4a2528d38f7038f2817c30f2f392b9a37406;
  0x124c16653b71f4e19636baf39358628731d0fc1c9371755a5a6ccec8537b73d424410b065b7163beba849104039487927837ad3da3710934cfb1ff49eb7c16f00;
  0x147c5bbf5b499640d8bdd22a33301f8a0d1cfa6be3492ece9e91921c33583d109e219060db4e2f4bd6a743df73714de6886a97a7a34dc4263a32fb53db58dba05;
  0x12e77eff6b1c3977ae8252f35302bbbade5d28d3531bd34a90004ff3c330012cfca239b47b25ebfef8c3ca42a3490ed4d197b0f973256eb7755e45534b3081c50;
  0x11be8193eae9cc348c68527a32d045b8c590f761a2e957045c5c474c73028ce19c33f2f74af87b9ffed09126931ba1f47b70eb1f32f81af4e44b3da71b0329a98;
  0x1ee5d7ce7ab2416060cece3d8298c6ec965d6cfab2b1df147222e6bbb2d02355784ea6bbdac616aa7615cb0f22e932cd9e63f0c932c59f69043278fb7ad0b5005;
  0x17d049935a75ab030ebc4df0125c2e3a66b59692b2753e46a339984dc29896e5779426539a8e85340e0f8c1ef2b1ac8079b91999828e22185c853666ca99312c1;
  0x17bd69062275ab03117b1222725c2e3a66b5a675e2753e46a54567f6b25c0e522eab08414a5202910a70ff27d2751cacb33d08eea2518172e904549e6a5c957b4;
  0x1edb4372e2b2416062dfb8384298c6ec965fa29a52b1df1475375c21125c0e522e9da4188a52028f1d3b239072751cacb5118bb8da51816febfc44b1e25c957b4;
  0x11b59501f2e9cc348f5db7a5e2d045b8c58f873472e957045e90ceda829896e5777a1b970a8e85319507b0d7b2b1ac807c7a51865a8e221692ebcb20b299312c1;
  0x12e66c2b331c3977b08638bb4302bbbade53c294b31bd34a93015e95e2d02355784e5407dac616a8970bb98a42e932cda05cdec49ac59f6698ce7fdb72d0b5005;
  0x14754d8463499640db5a6c5b23301f8a0d27bb4733492ecea083ec76b3028ce19c2361599af87b9d3193d9c8d31ba1f47e20c7761af81af2ff701e43230329a98;
  0x1248fe1b4371f4e1996f11a8f358628731d8f9d97371755a5cd3436da330012cfcb536118b25ebfb8232c480b3490ed4d3556b536b256eb53bf2eff3233081c50;
  0x17731ed7039525bfae64cca1637b9fe4fd71d7199394b5fa52ae7778e3583d109e23f86cfb4e2f49bc442b5b63714de68a901e3ffb4dc4237085cb632358dba05;
  0x1f7018bb73b347c756b3ec0fd399d0547f7f24ff93b2e8fc3993435c937b73d42438f6b80b7163bbdf53883d639487927abc1dfb6b710932ca0046a8237c16f00;
  0x19d0337683cc5bf3727bf46163b2edf7323ed735a3cc0418e1df6cd723999e9e5850c5db7b8f8cf2390b4909a3b2b4a2555bd3254b8f2815d2764a30939a37406;
  0x1fee9e6b93e05f616d6c6e1763c6f707c26b7dd273e008dec5ef9e6cf3b2b6f442319bb3eba8a5603186acfe33cbce430bb68f5b0ba83afbf85ec1d0f3b34a682;
  0x172b58f063ef5171b0efec5253d5f31bc59d98ca83ef06ce1fcf060723c6b6a4f364f35c5bbca986e371c11b53dfcdef86e649ba9bbc40c32b04bcb083c74da9d;
  0x1aa4cc0f83f9327618ecc945e3e001589b4ea701d3f90f02c2ecae4ba3d59420659ac7830bcb98a70efc651d03eea995c40d577b5bcb3e431e8bd00633d6406e0;
  0x113793cff3fde11be0b4bacf73e550ae756a0bbf93fe628f08b8b349f3df3584b3f6607bfbd57321269ba45873f845f40b8a8768abd548332757666e03e023025;
  0x12150150cbfcfde35b99dfe6a3e6976cfaa98025e3ffad0f31aaef5863e269d808393cff0bda23510f36c24a63fb7d0ea4f7ebc7ebdaad61005bae8a83e4c8d9d;
  0x1a427cac5bfcf593360dc10d93e40fbcb817f7f053fd1e2a7e8c846febe385015c840542f3d934bd8bd0a5938bfc99a92f4b18434bdc03ccb75952ca9be3e42dd;
  0x187d01aedbf673cf9c18d4b133dd258d7f8deb5423f63523d0fae021e3e251fcb9b41a9d63d92fb54477c44d63fb63ef0ccbeb811bd95a8daf279c535be3dc48f;
  0x187b87cba3f673cf9c18d4b133dd258d7f8c7aafa3f63523d0fae021e3dc994f86e7128953d2c244ba46d41513f5af0b5d3d632d3bd2765fab9d56887bdd61105;
  0x1a2f825a43fcf593360dc10d93e40fbcb810199b73fd1e2a7e8c846ff3dc994f86dc3e5cfbd2c24501cebbb633f5af0b5d3d632d2bd2765febd1ebd413dd61105;
  0x11d408b9d3fcfde35b99dfe6b3e6976cfa8f5be363ffad0f31aaef5863e251fcb9bc12d22bd92fb551ab4e7b13fb63ef0ccbeb811bd95a8d2c8e06c553e3dc48f;
  0x1139b67e8bfde11be0b4bacf83e550ae7568ffb1e3fe628f08b8b34a0be385015c6fdd18cbd934bdaec5deaeebfc99a92f4b18436bdc03ccceede0ff93e3e42dd;
  0x1aa46ed31bf9327618ecc945e3e001589b53485573f90f02c2ecae4ba3e269d80864981783da23516a5634e373fb7d0ea4f7ebc7dbdaad6115aeceb8abe4c8d9d;
  0x172beeb36bef5171b0efec5253d5f31bc5995904c3ef06ce1fcf060723df3584b3f3e96793d573213e94a42003f845f40b8a87689bd5483321ff85fd2be023025;
  0x1ff459ec8be05f616d6c6e1753c6f707c267a25193e008dec5ef9e6cf3d594206586246533cb98a6b6998eb983eea995c40d577b6bcb3e4330f150bb2bd6406e0;
  0x19d2f5d33bcc5bf3727bf46163b2edf732367949b3cc0418e1df6cd723c6b6a4f35f561bf3bca986ef8afb3753dfcdef86e649ba9bbc40c35ee12c799bc74da9d;
  0x1f6dddecdbb347c756b3ec0fd399d0547f83fb3b73b2e8fc3993435ca3b2b6f44223acdaa3a8a5604d7a2388e3cbce430bb68f5b0ba83afbf9002a005bb34a682;
  0x1774473f4b9525bfae64cca1737b9fe4fd715e5b8394b5fa52ae7778f3999e9e585452be338f8cf22f9a426913b2b4a2555bd3254b8f2815dad392992b9a37406;
  0x1243477ddb71f4e1996f11a8f358628731e0b553f371755a5cd3436da37b73d4242cbaf5037163bb83d15c5c039487927abc1dfb7b710932cb3dc6f13b7c16f00;
  0x148a75aedb499640db5a6c5b23301f8a0d272f1ee3492ecea083ec76b3583d109e273493a34e2f49cb8079d523714de68a901e3feb4dc42387473295bb58dba05;
  0x12e914b93b1c3977b08638bb3302bbbade5f92e6031bd34a93015e95f330012cfcacaf326325ebfb7c07378933490ed4d3556b536b256eb53ede0a75fb3081c50;
  0x11b81acdeae9cc348f5db7a5e2d045b8c5893e92b2e957045e90ceda83028ce19c2b906db2f87b9d4e10e48db31ba1f47e20c7760af81af2ffef33277b0329a98;
  0x1ed90afd4ab2416062dfb8384298c6ec9649727b12b1df1475375c2102d02355784a666492c616a8905199c292e932cda05cdec49ac59f667a51d8230ad0b5005;
  0x17c1e32c9a75ab03117b1222725c2e3a66a99b0fa2753e46a54567f6a29896e577791362028e85318b8a2417e2b1ac807c7a51865a8e221678c172314a99312c1;
  0x1923cf6c9275ab0314367406125c2b51483dd0f892753e46a74eb1ea825c0e522ea8671f7252028f1bf567c0d2751cacb5118bb8ea51817016e3bb5b7a5c957b4;
  0x1e1676a612b2416064ee1633b298c28b020f30e392b1df1478480595925c0bb7ba3f3db22a538298eb6a5e5422751cacb6e3ccf93a532027101bb81bf25c91939;
  0x1d7a61cec2e9cc34924f772b92d04295bb0b79ee52e9570460c29e81e29892fa4be3b530ba9022f5aba8526b82b1ac807f38241eda8fb1bcb4b82e3e02992e3bb;
  0x16319f5e731c3977b287a28f6302b774e34fbdd8631bd34a95feb931b2d0208735a9873b1ac7a0a6451f7618c2e932cda2535e516ac7368d6b9aa7fb12d0b0cae;
  0x1ee54d8463499640ddf3ce5ab3301cc52564eeac13492ecea273e07e0302890f217cfaf34afa1bcc92cb5ca8f31ba1f480cd53de0af9a7106fbe5f51130326cba;
  0x13f5cae81371f4e19ca37032c3585f1d225a78766371755a5f36c2a0d32ffd65e1ba6c233b276fcdd08cb0e273490ed4d51100395b2712260d62dff8c3307e0de;
  0x14b4b870a39525bfb045ea91c37b9be3a2aa37a41394b5fa557bcf3aa3583a02eb6f2ba04b4fc579a7bbaefb33714de68cb2ff705b4f52047a234c12a358d70bb;
  0x11a34beea3b347c758ccc667c399cbdbbaa76c0013b2e8fc3cb42607137b703f6d85c384eb7309f26b081515e39487927d3d74509b728c86847f6a6c537c14405;
  0x1278337683cc5bf374b5d8c4c3b2e9355d2a122b13cc0418e3896d03c3999aa022ca5f752b9128c184a9387703b2b4a25826f77fbb90bab48e31cedbc39a34411;
  0x11169e6b93e05f616fabf07b23c6f22f944c12ac83e008dec7a16fe053b2b2ba0d819bb40baa3b04fc61ab0ab3cbce430eabad2eeba9d6f62d36194b83b347399;
  0x18be8c2393ef5171b3189b49b3d5ee4d42964278b3ef06ce217d75a143c6b26b8234f35c7bbe3e1fd8dc701173dfcdef89dadec3ebbddf9ad4bbe5fa53c74a734;
  0x14e8cc0f83f932761ae2b976a3dffdbc47eb7cdc53f90f02c4a88e6e03d5903c0e24611cbbcd3181ba257f7a53eea995c6c6630f6bccdbdd490e54d7a3d63d580;
  0x1d012d6993fde11be3c8b6ff73e54d7065ce685193fe628f0afd6a3ef3df32899c36607c1bd71574c9a6e8e733f845f40da064650bd6eab8eb6d3cc413e02034e;
  0x1dae9aea5bfcfde35edcfeee13e6938080e5237253ffad0f3469abacf3e2665bef52d698ebdbb392face9406d3fb7d0ea76809492bdc41008a4628dcb3e4c4737;
  0x1c28c9792bfcf5933943427e33e40d1ec5db80a713fd1e2a806136ffebe381424cea6ba943dacda0b91b8683ebfc99a931ea0f016bdd84738ed2ee1cbbe3df841;
  0x152aece21bf673cf9e79cd5883dd22b9c486f00e43f63523d2f5336dd3e24ebb7203b43703dac61ab2d57bc3a3fb63ef0f12e302dbdb031502e8f36bebe3d7b2b;
  0x152387cba3f673cf9e79cd5893dd22b9c4858324e3f63523d2f5336dd3dc955e6784d8efc3d4509f01581b6bd3f5af0b5fff5fd04bd417e1aadbb2b96bdd5da9e;
  0x1c2c4f2713fcf5933943427e23e40d1ec5df9302d3fd1e2a806136fff3dc955e677c3e5d0bd4509f0073aeb4e3f5af0b5fff5fd04bd417e1aee933c4e3dd5da9e;
  0x1dada25373fcfde35edcfeee13e6938080fb3542b3ffad0f3469abace3e24ebb72027938abdac61aa26f408793fb63ef0f12e302dbdb0314fe81a261d3e3d7b2b;
  0x1d0550182bfde11be3c8b6ff73e54d7065cfa896d3fe628f0afd6a3f0be381424cc976b23bdacda04a9621b64bfc99a931ea0f017bdd847394ffc6a303e3df841;
  0x14f1f86cabf932761ae2b976a3dffdbc47ed5b5be3f90f02c4a88e6df3e2665bef5afe7df3dbb392fa5e4dad63fb7d0ea76809492bdc41007fdfd7c9bbe4c4737;
  0x18c04e19cbef5171b3189b49b3d5ee4d42a9c24fe3ef06ce217d75a133df32899c38dc9ac3d71574dd985c3b83f845f40da06464fbd6eab8dd5c2c4e5be02034e;
  0x111c59ec8be05f616fabf07b23c6f22f942ff78823e008dec7a16fe043d5903c0e27a93203cd3181b7d1307b33eea995c6c6630f5bccdbdd41eb9980abd63d580;
  0x1270ca4f6bcc5bf374b5d8c4c3b2e9355d34fd1763cc0418e3896d03b3c6b26b8248f61bf3be3e1fdbe2becdd3dfcdef89dadec3fbbddf9ac43f0d7f5bc74a734;
  0x11a53107fbb347c758ccc667c399cbdbbaac13e993b2e8fc3cb4260733b2b2ba0d804c3503aa3b0500ede348a3cbce430eabad2efba9d6f633d05ac09bb347399;
  0x14b437e3fb9525bfb045ea91c37b9be3a2b27132f394b5fa557bcf3ab3999aa022c34989039128c18777c1a713b2b4a25826f77fbb90bab48d478b9e1b9a34411;
  0x13fa84dacb71f4e19ca37032c3585f1d2269c4dd6371755a5f36c2a0e37b703f6d6eded0f37309f2665e2605039487927d3d74509b728c868edac4335b7c14405;
  0x1efa29df2b499640ddf3ce5ac3301cc5256a093a63492ecea273e07df3583a02eb69b608e34fc579b6c3c0c503714de68cb2ff705b4f52048067aabefb58d70bb;
  0x163444151b1c3977b287a28f5302b774e3664922b31bd34a95feb931b32ffd65e1a4f001a3276fcdcf66e289e3490ed4d51100396b271225f694bb493b307e0de;
  0x1d7ce73beae9cc34924f772ba2d04295bb15897182e9570460c29e81e302890f2194faa3d2fa1bcc99efbe77931ba1f480cd53de0af9a7106c59f3553b0326cba;
  0x1e143e2c2ab2416064ee1633a298c28b02084d1ad2b1df147848059592d0208735a21011c2c7a0a651c2e49a42e932cda2535e516ac7368d78db4cf7bad0b0cae;
  0x19284992aa75ab0314367406125c2b51482e4df102753e46a74eb1ea729892fa4bd1ba19829022f5a948f50752b1ac807f38241eea8fb1bcade7e4138a992e3bb;
  0x1c6569062275ab0316e7b755b25c2586382cceee52753e46a95070f7025c0bb7ba4454d8b2538298eac780edc2751cacb6e3ccf94a5320271a1fc2116a5c91939;
  0x1b81a9d952b2416066f4d6786298b9d2a6c3fb14a2b1df147b4d5493d25c06893c75a418aa544018b74ec8a3d2751cacb8af4f2c5a53dd2bfc1e7042a25c89cdd;
  0x1533fb6862e9cc3495364ebcf2d03c5761ec296fa2e9570462ec4d28e2988b2d9ded4eca6a90e1d1f20eb8a1f2b1ac8081ebcf193a906720a9d54b9e129928623;
  0x1e04d291a31c3977b4819ea84302aef37651a2a7131bd34a98f100dc02d01af19b27eda19ac858faa4295483a2e932cda44298912ac80121eaada855d2d0a86a8;
  0x1cad4d8473499640e0838fb63330174229bea98df3492ecea45ca776830281739896948cfafad5f66931c2e0931ba1f4836ff8a41afa5e4a6e9bfb0fe3032116f;
  0x125f6481b371f4e19fcbf002e35858516e480f4a7371755a619168c9432ff389e8ca6c234b28308910465852f3490ed4d6c62a0dcb27c5fafb145d48333076a8e;
  0x1e9beba3d39525bfb2201267d37b93eacd244f8a7394b5fa583ec5e1735833ef0d2d9206bb5077786d7770f1d3714de68ecdf6ef0b5017df6ead18918358cdedc;
  0x1a24e58843b347c75adddc31d399c2f537a8426553b2e8fc3fc97223637b691ed41f5d1e8b73b866716e7b50839487927fb58312fb73485133851b7bd37c0ee78;
  0x1bb366a9b3cc5bf376e77e38f3b2dfbd6d340d7f83cc0418e52d433df39992ad90272c420b91eb6b27dc6b7953b2b4a25ae7c2e5db916e8d9134a3c5d39a2e49b;
  0x1f61d19ec3e05f6171e31f2143c6e88b291d8d16b3e008dec94cfa6c63b2aa500feb354dbbab04d4a164089e93cbce431195d6948baa85f2aa9e298eb3b340e43;
  0x176cf28a03ef5171b5394b0ff3d5e4bc161ed0d203ef06ce2325aadb33c6aa0309de8cf62bbf0766d7a16b21b3dfcdef8cc481599bbe8d1a8eb7015cd3c7440de;
  0x125598dc53f932761cd1666d53dff3dea2f0472773f90f02c65e026843d5887cf797944ffbcdf9e8b6f24c14c3eea995c97558b78bcd8a01fc28441393d63733a;
  0x1d592d6993fde11be6d14c6a33e546fc44dfa5be93fe628f0d39ba2e43df2c9ac61cc6e28bd7cb7573408252c3f845f40fae87e67bd7964f6fda6c2923e01aa0e;
  0x13f50150bbfcfde36214089733e68bb139f808ed43ffad0f371e3d0183e25f6c54d2d6992bdc68a60d6749db63fb7d0ea9cf1f029bdd09c8cc4f7666b3e4bbb1a;
  0x1ef42fdf8bfcf5933c6ce0ff93e407e955156f0fa3fd1e2a822f21764be379cd6a040542b3db7e38b2f429ea9bfc99a9347f506eebde41a1b37b250dcbe3d63c3;
  0x1070ab487bf673cfa0d1f64fe3dd1d1946b05d7c63f63523d4e8333f93e24840e8d88103d3db77fd9cd12449d3fb63ef11516b273bdbad080d8068062be3ce918;
  0x1086bafed3f673cfa0d1f64fe3dd1d1946b2bd3613f63523d4e8333f93dc8d85e09ac5bc93d516b774da741c63f5af0b62b72568abd4cf79889f1fe33bdd56e56;
  0x1ef11bf3e3fcf5933c6ce0ff93e407e9550f228e63fd1e2a822f217643dc8d85e095d7f6bbd516b7736d0a71d3f5af0b62b72568abd4cf7987f11cb7d3dd56e56;
  0x140da25383fcfde36214089733e68bb139fda72d03ffad0f371e3d0163e24840e8c8df9f3bdb77fd8e046ce993fb63ef11516b274bdbad0811c23d7c93e3ce918;
  0x1d55e9b1cbfde11be6d14c6a33e546fc44e0f23293fe628f0d39ba2e5be379cd6a0976b20bdb7e38c54b1072ebfc99a9347f506f0bde41a1b633f1bdd3e3d63c3;
  0x1253d2064bf932761cd1666d63dff3dea2f95c5553f90f02c65e026833e25f6c54f964e463dc68a60cc8c07473fb7d0ea9cf1f028bdd09c8cc942eb39be4bbb1a;
  0x176ff8002bef5171b5394b0ff3d5e4bc161ec91763ef06ce2325aadb43df2c9ac614cfce03d7cb757b2b8f6f03f845f40fae87e66bd7964f609d6fd39be01aa0e;
  0x1f5c289fbbe05f6171e31f2143c6e88b291e7e40c3e008dec94cfa6c63d5887cf7954ffed3cdf9e8b843fd4803eea995c97558b78bcd8a01e8719d169bd63733a;
  0x1bbac3be6bcc5bf376e77e38f3b2dfbd6d3a90f523cc0418e52d433df3c6aa0309dbd6c253bf0766e0bce29a23dfcdef8cc481598bbe8d1a887af652dbc7440de;
  0x1a2250b8fbb347c75adddc31d399c2f53795d99cb3b2e8fc3fc9722363b2aa500fda369103ab04d4ac7b52a453cbce431195d6948baa85f2b638458e3bb340e43;
  0x1e9aaa1f2b9525bfb2201267d37b93eacd1ad8745394b5fa583ec5e1639992ad902d5f148391eb6b2b4d802713b2b4a25ae7c2e5eb916e8d92cbf9183b9a2e49b;
  0x125ea8fe1b71f4e19fcbf002e35858516e3ef8904371755a619168c9537b691ed4057adba373b8666dc5d6f2339487927fb58312fb73485131d3612b0b7c0ee78;
  0x1cb1df71bb499640e0838fb63330174229ce1aafc3492ecea45ca776735833ef0d342d5d13507778709f1e0853714de68ecdf6ef0b5017df6766b379bb58cdedc;
  0x1e077382eb1c3977b4819ea83302aef37667f866a31bd34a98f100dc032ff389e8c264ae632830890fe50f7f03490ed4d6c62a0ddb27c5fafbd2c9760b3076a8e;
  0x153680787ae9cc3495364ebd02d03c5761ee2e5bb2e9570462ec4d28d302817398aad59602fad5f6805b2bdfc31ba1f4836ff8a40afa5e4a6d0d7869cb032116f;
  0x1b77715b1ab2416066f4d6786298b9d2a6a707a0c2b1df147b4d5493d2d01af19b29a1dcd2c858faaa7b49cfd2e932cda44298912ac80121e9550a30bad0a86a8;
  0x1c69e32bda75ab0316e7b755b25c2586382b7817a2753e46a95070f702988b2d9de425b2d290e1d1efaf60ee72b1ac8081ebcf193a906720a27798926a9928623;
  0x1b3f029fc275ab03198838bea25c1ce77f197dbd12753e46ab45b282b25c06893c742bbb02544018befd5a3032751cacb8af4f2c5a53dd2bfde78e610a5c89cdd;
  0x131cdd0c82b2416068eefa160298acd90419a1ef22b1df147e3fd694225bfda6f76814fe2a54bbcf90e8621e72751cacba6fa5704a544acc0af0038b625c7e3d3;
  0x1fbd950202e9cc34980b16ef12d0330d1ec48ef5c2e95704650885c042987f92a836e8641a914e050c3a8f6ce2b1ac80848ea9352a90f1ed63660f20b2991fae0;
  0x1b899f5e731c3977b66f4d8ec302a24b8fb46878031bd34a9bd0f1f702d012a26d7654080ac8de4f5dc2edfbe2e932cda625c8923ac86482f269f97e52d09bf3b;
  0x18e880b7a3499640e3035fb763300f0eb0e64a8f23492ecea6398c55d3027621c2ecfaf37afb45ccb165ae26631ba1f486023680cafae5accf6d6f9d330318999;
  0x1778fe1b5371f4e1a2e0c7cee3584e34d689d7637371755a63dd681e932fe4de5d5405bd0b28a63c4b798b68b3490ed4d870b3062b283ab8431ed86cc3306ba83;
  0x13d31ed7039525bfb3eeb325737b880e242a547c3394b5fa5af08c76e3582ae3ff43f86d2b51044b0b88853393714de690dbd3f4ab50840a8027b2734358c05cf;
  0x1e31b25513b347c75ce215036399b5b6e77d0ef073b2e8fc42cb8dbea37b5e83ea78f6b83b74314e23ea70c623948792821e33f8bb73c73554d724de537c06f2e;
  0x134366a9c3cc5bf3790b7c0c43b2d1a6bac653f3c3cc0418e6c6e472e39986da382d92a88b9254ac70bb0271b3b2b4a25d976bbabb91fc38e8ac46e0f39a25691;
  0x1f769e6b93e05f61740c83b1f3c6da3246f979ab73e008decaee1fff83b29dcb083b354dcbab69a3b964088563cbce43146ddbf18bab0e54648cedf103b33777c;
  0x17fe8c23a3ef5171b74cbcc383d5d67fd6b62b4f23ef06ce24c38fdb43c69d804534f35c9bbf6d343c6e37d503dfcdef8f9c032dbbbf134a5b61f9b363c73a89a;
  0x137b3275f3f932761eb40c94b3dfe5309a8e3408f3f90f02c808d3b8f3d57cf63b34611cebce5eb82d12bf8b83eea995cc139acefbce1124eba0a2ea63d62e100;
  0x194f93d003fde11be9c7007493e53d61fbec0b8f53fe628f0f68201a73df23c6d22993af6bd83e848b39daaca3f845f411afe0c5fbd819ac3b48ead803e012541;
  0x1691ce1d7bfcfde365370fc043e6801266bbee9b13ffad0f39c1f7ddd3e2551a52f93cffdbdcf40933cdb01ae3fb7d0eac2740826bdd7081e6b6407ea3e4aea9f;
  0x14a3c9792bfcf5933f82d084a3e400293d4267fa33fd1e2a83f1d101fbe36eb515b73875d3dc08f92fe07b7bebfc99a937047e46dbdebdf06ee2067b2be3c86cf;
  0x19d683487bf673cfa31b87f1e3dd14b9e5885a9943f63523d6cf115913e23e9d172fb43703dc04a755355ef283fb63ef1381fb784bdc296c896f979dcbe3c0fbf;
  0x19db87cba3f673cfa31b87f1e3dd14b9e57b660fa3f63523d6cf115913dc81d94a3065bc93d5827040f2741c83f5af0b655e0097abd5414d48fd7cb23bdd4cd37;
  0x14a91bf3f3fcf5933f82d084a3e400293d428f4823fd1e2a83f1d10203dc81d94a1c3e5d3bd582704039d72393f5af0b655e0097abd5414d4e32a7eb93dd4cd37;
  0x167a6f2063fcfde365370fc033e6801266cb6b8403ffad0f39c1f7dde3e23e9d1728df9f5bdc04a757023661d3fb63ef1381fb783bdc296c8a98a2db43e3c0fbf;
  0x194ce9b1cbfde11be9c7007493e53d61fbf22d1093fe628f0f68201a7be36eb515d6437eabdc08f9390bee6d3bfc99a937047e46fbdebdf0665bb7b163e3c86cf;
  0x137e75397bf932761eb40c94b3dfe5309a8aff8e53f90f02c808d3b8e3e2551a52e164e463dcf40945c8c07873fb7d0eac2740826bdd7081f242455c5be4aea9f;
  0x180236ccfbef5171b74cbcc383d5d67fd6b50c6093ef06ce24c38fdb53df23c6d22eb63463d83e848928faeae3f845f411afe0c5fbd819ac37704f960be012541;
  0x1f69ddafbbe05f61740c83b1f3c6da3246fc39b543e008decaee1fff93d57cf63b30dd9863ce5eb82aa2cb70d3eea995cc139acefbce1124ef8ce0d27bd62e100;
  0x1333779f6bcc5bf3790b7c0c43b2d1a6bace129693cc0418e6c6e472d3c69d8045268bc253bf6d343a44229a23dfcdef8f9c032dbbbf134a5a545efc6bc73a89a;
  0x1e320456ebb347c75ce215036399b5b6e761b8a313b2e8fc42cb8dbe93b29dcb0842d56503ab69a3c158bca453cbce43146ddbf19bab0e545c97974b5bb33777c;
  0x13d27c8a0b9525bfb3eeb325737b880e242772999394b5fa5af08c76e39986da383398fda39254ac7b2f015053b2b4a25d976bbabb91fc38e58c9f771b9a25691;
  0x1772f4906b71f4e1a2e0c7cee3584e34d68e10c89371755a63dd681e837b5e83ea71d0d16374314e21abf976b3948792821e33f8bb73c7355417485f5b7c06f2e;
  0x18ecca510b499640e3035fb763300f0eb0f5ab47e3492ecea6398c55c3582ae3ff4a98a75351044b06e108dba3714de690dbd3f49b50840a80014338db58c05cf;
  0x1b943ca59b1c3977b66f4d8eb302a24b8fc01121631bd34a9bd0f1f7032fe4de5d55261e3328a63c4b487a7e43490ed4d870b3063b283ab84388fca82b306ba83;
  0x1fd019b7aae9cc34980b16ef22d0330d1ec810ddb2e95704650885c043027621c2fb6521e2fb45ccacfcd415131ba1f486023680bafae5accfa7a535cb0318999;
  0x131aa48a2ab2416068eefa160298acd9040de77752b1df147e3fd69412d012a26d72608412c8de4f5c151f9352e932cda625c8923ac86482f2be0882dad09bf3b;
  0x1b437cc51a75ab03198838beb25c1ce77f0cab5002753e46ab45b282b2987f92a835fa6b32914e050b0ae656f2b1ac80848ea9352a90f1ed65e25eb83a991fae0;
  0x189bcf6c9275ab031c117e3ed25c118a5d420d7212753e46ad29a2bee25bfda6f76d9c4ad254bbcf9096f3e892751cacba6fa5704a544acc0e26f6d99a5c7e3d3;
  0x1a50103fb2b241606ad7a13412989bbe1730268bd2b1df1481184768925be952f40e7b64aa5519a02ada9766c2751cacbc207e6e8a54a3d2953ae01fa25c6efe3;
  0x17c8c83532e9cc349ac6d4ddc2d026cdd8fe082522e9570467121468e2987046077081fdca91a7e99f6dc289b2b1ac80871a32a75a913bf746317df1229914348;
  0x1cfcd291a31c3977b84bee1ff302919c630fb4cdb31bd34a9e97761ac2d007ae28e320d4eac92f84907b108782e932cda7f847121ac8c47544192f28a2d08b855;
  0x13ad4d8473499640e56d14f61330043ef2caefbd03492ecea805f75d4302673588b6948d2afb9d7af498e143c31ba1f4887db69c4afb3430ea9d45d923030d686;
  0x154f6481b371f4e1a5da5ec2d35840e0495c5256d371755a661516f7732fd1876a1a6c237b290bef50232c0c93490ed4da0c7f8bfb288f6b2d5b6476c3305d26f;
  0x13163dae139525bfb5ad5838437b786ae684a68da394b5fa5d8a7e64e3581ef80d459206db514a5826bbb85553714de692d78607bb50ec78e92b101be358ae7ac;
  0x10ee7f21e3b347c75ed478283399a44170ed425423b2e8fc45b30e35037b5088d5f8f6b84b74837863ea70b1b39487928471969b2b7420dba450373de37bf8ebe;
  0x1475004353cc5bf37b1c8b3743b2bf14018063bf73cc0418e8525eb9a399774342c3f90f0b92b05b8d87cf27a3b2b4a2602f529f8b92427fb8450228539a19b52;
  0x17d36b3863e05f617622c9d4e3c6c7484cfc681053e008decc80dc28b3b28d49d3f8021aababcaf742fda206b3cbce43172cba65abab5715093254a533b32b0b6;
  0x1269bf56d3ef5171b94dd228b3d5c3bb9ca931f703ef06ce2653283503c68d020c5b59c31bbfcf7d513b048953dfcdef925a62a44bbf5d60c51282a7b3c72dfdf;
  0x1ee7ff42c3f93276208605fe03dfd1d65f8da3f053f90f02c9a4e61733d56dc4439dfab68bcebd1b5845f2a733eea995ce9ab4dddbce5aa76ff3c038e3d62203b;
  0x10ac609cd3fde11beca2871023e530b937ac633c53fe628f11833b5403df182383fffa15ebd8943d1006a763f3f845f4139f7d65cbd8657a3f78f2fdd3e00762e;
  0x11450150abfcfde3683e589bb3e670c0ad9e2c6903ffad0f3c4e5a4cc3e2477f5a8609ccebdd3d4de04d3e6123fb7d0eae6aa635dbddd3ae97d12271c3e49d7c8;
  0x1b2749792bfcf593427d758783e3ebe333f23c3d23fd1e2a85a4ee820be36014ab84054283dc5048f17a15346bfc99a9397361e51bdf1af9e1b1be97bbe3b6387;
  0x14c818e21bf673cfa550de9223dd09b045426757a3f63523d8a51d6513e231e7c181b43703dc4acd69755ef343fb63ef159f2def5bdc7977e0762a06dbe3af136;
  0x14c1ee3213f673cfa550de9213dd09b045487b6793f63523d8a51d6513dc72756c1228efc3d5ea70453c0db633f5af0b67ed67b2bbd597c5a79cfdcf9bdd3f8d0;
  0x1b2ab58d83fcf593427d758783e3ebe333efd4eac3fd1e2a85a4ee81f3dc72756c0f71908bd5ea7046a03d7003f5af0b67ed67b2bbd597c5a0246d30a3dd3f8d0;
  0x11473bed33fcfde3683e589ba3e670c0ada37feb03ffad0f3c4e5a4cc3e231e7c175ac6c4bdc4acd63cf031c63fb63ef159f2def4bdc7977df0684a623e3af136;
  0x10af834b5bfde11beca2871013e530b9379bc7c5a3fe628f11833b540be36014aba3104b4bdc5048ef7254a2ebfc99a9397361e51bdf1af9e27c642b83e3b6387;
  0x1ee6406cabf93276208605fe03dfd1d65f8f92d053f90f02c9a4e61713e2477f5a9fcb4ad3dd3d4de3312d0af3fb7d0eae6aa635dbddd3ae8cdb22024be49d7c8;
  0x1269c2802bef5171b94dd228b3d5c3bb9ca80c7623ef06ce26532834f3df18238405bc9ac3d8943d13ec2e1e33f845f4139f7d65bbd8657a4091e43efbe00762e;
  0x17bb97cfbbe05f617622c9d4d3c6c7484cf12ba2d3e008decc80dc28b3d56dc443a9d1fed3cebd1b5aeffea413eea995ce9ab4dddbce5aa76bcc844debd62203b;
  0x14750af19bcc5bf37b1c8b3743b2bf1401887f4b13cc0418e8525eb9b3c68d020c59aa0253bfcf7d53c8129a23dfcdef925a62a43bbf5d60c6090a78dbc72dfdf;
  0x10f0d996cbb347c75ed478284399a44170ec177523b2e8fc45b30e3503b28d49d3f13c6f73abcaf7404bdad783cbce43172cba65abab5715067605772bb32b0b6;
  0x1309e1800b9525bfb5ad5838437b786ae68721370394b5fa5d8a7e64e399774342bf6bb99392b05b8bf62bf9f3b2b4a2602f529f8b92427fb751b45cbb9a19b52;
  0x155441727b71f4e1a5da5ec2c35840e0495bec8ed371755a661516f7637b5088d5ef2eb41374837860092abeb39487928471969b2b7420db9f7c2fb26b7bf8ebe;
  0x13c15195fb499640e56d14f61330043ef2cd4631f3492ecea805f75d33581ef80d48ffbf83514a5827c76814c3714de692d78607ab50ec78ec1974664b58ae7ac;
  0x1d076c52eb1c3977b84bee1fe302919c630ececf931bd34a9e97761ae32fd1876a2c57c363290bef5021d0e433490ed4da0c7f8bfb288f6b3121b73f8b305d26f;
  0x17cb4c93eae9cc349ac6d4ddd2d026cdd8f7ff9b22e9570467121468f302673588c5748d62fb9d7af0326072631ba1f4887db69c3afb3430e99497dfeb030d686;
  0x1a45d7b95ab241606ad7a13412989bbe171a1e3392b1df148118476872d007ae28d5759512c92f848fa4464e72e932cda7f847121ac8c47542c98a0ccad08b855;
  0x18b049918a75ab031c117e3ed25c118a5d34e3dbf2753e46ad29a2bef2987046076c402b9291a7e9a63e1c1c32b1ac80871a32a75a913bf741899b381a9914348;
  0x1b5d69063275ab031e7d471c225c038ad719eb43b2753e46aef7988f425be952f4093ae7925519a02ab1e06982751cacbc207e6e8a54a3d29b5699790a5c6efe3;
  0x1b40103fc2b241606caa1716a29886ac0c022a2032b1df1483cfa327c25bd0488d2b48318a5552a243a7642572751cacbdbdaf003a54f8ce3551a9a1125c5c366;
  0x1fb72e9ba2e9cc349d62cb6072d017b7c24d5409f2e957046903f34752985d6d73b081fdda91fdb91f6dc27462b1ac80898825202a917becdd85a1c2129906121;
  0x14c671f0131c3977ba12e945e3027d0f12cf2f20031bd34aa13db58ec2cff45f9e2974dd1ac96cf50fae43ab82e932cda9b595f60ac91005fa48a09592d07747c;
  0x102a1a5143499640e7babc89932feddb2e80c3f0f3492ecea9bd796d530254d3b4c9c7c06afbf12ddaff4795631ba1f48adc5a303afb7293a6c9d5074302ff3e1;
  0x132c314e8371f4e1a8b15f3af3583074a41c9e0f3371755a6832fdc0432fb9b4bdb0d289fb29422bf289926583490ed4db95985d5b28e04569b9e76263304b48e;
  0x16b970e1539525bfb757b475837b6527a2031937b394b5fa600631d5f35810489bb0c53a1b518d36f1221eab23714de694bc29796b512814a87c4a8c435898734;
  0x1cae7f21e3b347c760b038e473998ebfdf36cb57f3b2e8fc4878ca7b437b3f500e95c3852b74d1e765840a37d394879286a9ef1a2b745b547b7f53d2837bdf152;
  0x10b9cd1023cc5bf37d15935f73b2a8330c237c0ff3cc0418e9cbe30da399640f1f33f90f1b9303f04ac3e788f3b2b4a262a912c85b9283c7d5175623239a0b4a9;
  0x168d04d203e05f617820cc5443c6affbdc8fcf7683e008dece014dfeb3b278f5243e68812bac13ef9be5375e43cbce4319cbad129bab9c87c02a39c2b3b31bbdc;
  0x1af825bd43ef5171bb379a4833d5ac9dac917b4923ef06ce27d09abcf3c678b108e8268ffbc016a7d56a4f05d3dfcdef94f8dc182bbfa419b9456089b3c71e89b;
  0x1d5664ebe3f932762242d5d6d3dfb9ffa8b298bed3f90f02cb2e4194f3d55b0c87612de9dbcf0b9a8f562c7ba3eea995d1046b83abcea0d34930a4c683d6132c5;
  0x1d4f93d003fde11bef5cd4b833e521212de701b373fe628f1385dabb53df09cd8d1993af9bd8e6111339da82b3f845f4157897e1abd8add711d2036ea3dff3d0d;
  0x166b67b70bfcfde36b226bc2a3e65de1d332db6ad3ffad0f3ebd1be783e236bcf6f93d005bdd7d88c1e6d7e903fb7d0eb093bba77bde192d1a5e697f13e488539;
  0x191649792bfcf593455577cae3e3d2b737bb610393fd1e2a874449384be34e1039fd9edc03dc945b4cad48850bfc99a93bc5fb9b9bdf5441f322134f1be39fcb8;
  0x1c09727babf673cfa76c8864a3dcf82f38af531da3f63523da65d08673e222403c45b43703dc8dc3b9f55ef403fb63ef17a3cc452bdcc5e089e9e7e11be399041;
  0x1c0b87cbb3f673cfa76c8864a3dcf82f38c01ab5e3f63523da65d08683dc5f8038087c22f3d626db977ed3a7f3f5af0b6a5f0ae24bd5ea50b720d9022bdd2f32b;
  0x1917825a63fcf593455577cae3e3d2b737c789adb3fd1e2a8744493843dc5f80380c3e5d6bd626db981ceb7873f5af0b6a5f0ae23bd5ea50bb18758e43dd2f32b;
  0x162da253a3fcfde36b226bc2a3e65de1d322d00f83ffad0f3ebd1be783e222403c3c12d2cbdc8dc3ba35697173fb63ef17a3cc451bdcc5e089ca439e63e399041;
  0x1d57e9b1cbfde11bef5cd4b833e521212dee925e03fe628f1385dabb5be34e103a0976b18bdc945b72a587a7dbfc99a93bc5fb9b7bdf5441f4b702a603e39fcb8;
  0x1d47ada62bf932762242d5d6d3dfb9ffa8a4cde0c3f90f02cb2e4194f3e236bcf71964e473dd7d88c5e4604003fb7d0eb093bba76bde192d1aea08e03be488539;
  0x1af9f019cbef5171bb379a4833d5ac9dac91180633ef06ce27d09abcf3df09cd8d0d896793d8e6110d929484c3f845f4157897e1bbd8add711d389717bdff3d0d;
  0x169351095be05f617820cc5453c6affbdc8a405693e008dece014dfeb3d55b0c8757c93203cf0b9a9168cc1ed3eea995d1046b839bcea0d34b5dfef1abd6132c5;
  0x10a996b03bcc5bf37d15935f83b2a8330c41de32a3cc0418e9cbe30da3c678b108eb3a7583c016a7df50f619e3dfcdef94f8dc181bbfa419c2f2293a1bc71e89b;
  0x1cb177d2fbb347c760b038e463998ebfdf24582c73b2e8fc4878ca7b23b278f524421dd6a3ac13ef9d4cadb893cbce4319cbad128bab9c87c603b7f3fbb31bbdc;
  0x16b687b02b9525bfb757b475837b6527a1f9f7421394b5fa600631d5e399640f1f3c9f14039303f04b1bac91c3b2b4a262a912c84b9283c7d490cca55b9a0b4a9;
  0x133c35d0bb71f4e1a8b15f3af3583074a4217b962371755a6832fdc0437b3f500e982d8b7374d1e75e7c6ff0b394879286a9ef1a2b745b5477df56addb7bdf152;
  0x102ddc523b499640e7babc89a32feddb2e62e79e13492ecea9bd796d435810489baba5d3e3518d36ebcb489aa3714de694bc29796b512814aadd0272eb5898734;
  0x14db9ec0bb1c3977ba12e945d3027d0f12d33cce931bd34aa13db58ed32fb9b4bdaa05596329422bf29e3cbdf3490ed4db95985d5b28e04569034d386b304b48e;
  0x1fc9b2a7bae9cc349d62cb6082d017b7c24832e7e2e957046903f347530254d3b4cbbac9f2fbf12dd69b020a731ba1f48adc5a303afb7293a41a988e8b02ff3e1;
  0x1b3dd7b5aab241606caa1716a29886ac0be437bbd2b1df1483cfa327c2cff45f9e2389d242c96cf50ed794fbc2e932cda9b595f60ac91005f7fe561ebad07747c;
  0x1b71e32ada75ab031e7d471c225c038ad70c7ad982753e46aef7988f42985d6d73b195135291fdb91e3e1e8d62b1ac80898825201a917becde2bc3079a9906121;
  0x1097029fd275ab0320c59b4ee25be616ded3f1a532753e46b0ab2106a25bd0488d1ee254d25552a2437ead4462751cacbdbdaf003a54f8ce38f1f055ca5c5c366;
  0x1dd686e5e2b241606e61ddb852986dd6d509d4b9f2b1df14865f3777e25bb2c57ee814fe7a558861787430e4f2751cacbf433c75ba5524769aa44fcc325c46142;
  0x1e63fb6872e9cc349fd88ba802d005f00c72075a72e957046ad956e5a2984737639a1b978a92275001507ac9d2b1ac808bd283430a91b839daf76e720298ead31;
  0x11fcd856831c3977bbbfdd48530264d649fe76f6931bd34aa3bd2828a2cfd491491fdb438ac9a6e1ce14aa0392e932cdab596b5efac93b32acb785b7f2d05f6d0;
  0x1af54d8473499640e9e6a8b2b32fce76e6f5e717d3492eceab5bd6f373023f299893615a1afc200b7f193d5a931ba1f48d18499e1afbad64b5b1e2c85302debee;
  0x1094314e9371f4e1ab5ec8da33581d1a625eb13e6371755a6a31e475532f9da1136a6c23ab29754e40232bf283490ed4dd0834542b29163fc55717d90330363a0;
  0x165ca414839525bfb8e9acb4d37b4e73d3d7d4323394b5fa625d8784e357fdf3bda18a744b51cc4261221e9b93714de6968513738b515712dd20901cb3587e7cc;
  0x17f364aa33b347c76270c249c39975673789debb03b2e8fc4b15ecc5a37b2b0409a290520b750dece78ed1df9394879288c1c43fbb7492750debaaee037bc0a14;
  0x121e99dcf3cc5bf37ef1b76763b28d3c42360e8543cc0418eb2fceb1e3994d6d25bd92a8cb932d32045d811863b2b4a264fe91bf0b92c153f410dfbc1399f49a3;
  0x15969e6ba3e05f617a01a1ccc3c69486669fdc3503e008decf6bc1b043b260ff1874cee7abac3fbb524b9db9d3cbce431c443dcd6babde0194a4129663b309b49;
  0x188cf28a13ef5171bd055d9d63d5915f049349b493ef06ce29383b0573c660bf5174f35cdbc042e21a371bc7c3dfcdef9770fa894bbfe6c7194120f623c70c530;
  0x1b2331b8b3f9327623e6337923df9de73b444049f3f90f02cca11c67b3d544fd2be794504bcf3613b1bc92d783eea995d34acbd3fbcee2fb949680e723d601ae9;
  0x19f2c70343fde11bf1ef2fd053e50ec050beb831f3fe628f156b098d63def1d08a598dc5abd9199b60d0206af3f845f41736a1d39bd8f2102544d50113dfd40b9;
  0x1edb67b70bfcfde36ddc289cd3e647a45d5e0cf513ffad0f41083d52d3e222fc79ec7033cbddba172b807171f3fb7d0eb29d2d424bde45cdbe76e9f613e46f637;
  0x11adfcac5bfcf5934803d47603e3b50c9520f100d3fd1e2a88cbe11f1be338d42d7d9edbe3dcd4890cad48a09bfc99a93df691792bdf8a4320118fe01be3855d7;
  0x108cba7babf673cfa96952ea43dcd822e025d4ce63f63523dc0cd881a3e20fcd1fde1a9d73dccce5974ef88e43fb63ef198adccb4bdd06f52aa79f10fbe37f046;
  0x108387cbb3f673cfa96952ea33dcd822e0248c2df3f63523dc0cd881a3dc49286b011c22f3d655a81a66d3a7f3f5af0b6cace3b0abd61c117e782461cbdd1becf;
  0x11a5e8c0c3fcf5934803d47603e3b50c951c3db263fd1e2a88cbe11f13dc49286b0c3e5d7bd655a8181ceb6ce3f5af0b6cace3b0abd61c117779516613dd1becf;
  0x1eada253b3fcfde36ddc289cd3e647a45d5daf6c73ffad0f41083d52d3e20fcd1fef46061bdccce595689c9463fb63ef198adccb4bdd06f52f71cbaba3e37f046;
  0x19e0834b5bfde11bf1ef2fd053e50ec050b653a6a3fe628f156b098d7be338d42d8976b15bdcd48912a5877c6bfc99a93df691792bdf8a43206c8e5493e3855d7;
  0x1b1eaa72fbf9327623e6337923df9de73b39f2d183f90f02cca11c67c3e222fc79e7cb4ae3ddba172d312d0e83fb7d0eb29d2d422bde45cdb97ef0a82be46f637;
  0x188ff1ccfbef5171bd055d9d53d5915f0487fde523ef06ce29383b0563def1d08a66ec68c3d9199b5ef47d75a3f845f41736a1d39bd8f2102519e3db2bdfd40b9;
  0x1595074fbbe05f617a01a1ccd3c694866699a32c53e008decf6bc1b043d544fd2c036d9863cf3613b36865b873eea995d34acbd3fbcee2fb8e5209f48bd601ae9;
  0x122065356bcc5bf37ef1b76763b28d3c423cf77723cc0418eb2fceb1e3c660bf5174744253c042e21414314d13dfcdef9770fa893bbfe6c71b268ca02bc70c530;
  0x1805e8243bb347c76270c249b3997567376c327463b2e8fc4b15ecc5a3b260ff1883223503ac3fbb545d2b5223cbce431c443dcd6babde018fa34bc66bb309b49;
  0x16588dd3db9525bfb8e9acb4d37b4e73d3dc26012394b5fa625d8784f3994d6d25af0daed3932d32029cecd4f3b2b4a264fe91bf0b92c153f5f35f4d3b99f49a3;
  0x108faa6a1b71f4e1ab5ec8da33581d1a6261760f3371755a6a31e475537b2b0409a27115d3750dece59287541394879288c1c43fbb7492750f2541adeb7bc0a14;
  0x1af8d18f3b499640e9e6a8b2b32fce76e6f2462da3492eceab5bd6f37357fdf3bd9ae25b5351cc42614f156e93714de6968513738b515712dadeda17fb587e7cc;
  0x1211fedfcb1c3977bbbfdd48430264d64a09c2a1131bd34aa3bd2828a32f9da1136481b71329754e404c7db503490ed4dd0834541b29163fc5f1e2ae0b30363a0;
  0x1e667f270ae9cc349fd88ba802d005f00c703d97e2e957046ad956e5a3023f2998985c6a82fc200b7ce8267b631ba1f48d18499e0afbad64b9edfdba0b02debee;
  0x1dc215ca8ab241606e61ddb852986dd6d5052d98d2b1df14865f3777e2cfd49149138f9992c9a6e1cd3e152762e932cdab596b5eeac93b32abfac630ead05f6d0;
  0x109b7cc42a75ab0320c59b4ee25be616dec2ca3652753e46b0ab210692984737639c62080292275008b8aa0582b1ac808bd283430a91b839ddd9ceb12a98ead31;
  0x1a23cf6ca275ab0322e4da39925bc069a56efb3b72753e46b2400a5f625bb2c57eeeb68d82558861784b7a1e52751cacbf433c75ba552476a18037933a5c46142;
  0x1e6353b2b2b241606ffab8dd9298517babb6ed96e2b1df1488c0b411e25b91128bce7b64ea55ba5942da973f12751cacc0ad6665da5549b510cd6163b25c2ccde;
  0x136a61cee2e9cc34a222051aa2cfe3451a8ebe5842e957046c8dba0612982dda99bd4ecaca924ceb4c83adf3d2b1ac808df3a76b5a91f0496299cf6c5298c4c7e;
  0x10533ebcf31c3977bd4ea89a8302492dc09be0c5c31bd34aa60fa56662cfb03fbcf30e76dac9dcbbfd47dd2992e932cdacdfbc3bfac963564d9a3fc902d0442fe;
  0x1f1080b7b3499640ebeb7edc632faa9e746ccd3113492eceacdd125a0302266c9decfaf3bafc44b9e0b2d6eb231ba1f48f2c02d60afbe41321394852b302b9a36;
  0x1020fe1b6371f4e1addc01cbd35807013a95c0403371755a6c0cdf80732f7d91a43405bd5b29a4d835bcc58073490ed4de60c1bb2b2939aed830be44b3301e2e5;
  0x165fd747b39525bfba5f61f0337b3487750e65b3f394b5fa648ab9d51357d66d0507f0dacb52036f7dc44279d3714de6982ddd79bb5182c33170e4cb335860d74;
  0x14e697dd63b347c76411c28363995875f78638fda3b2e8fc4d840361e37b13d6d1cf5d1eeb75304c985b9ea3f39487928ab3ecfe8b74c5b565107fa2837b9ddb5;
  0x10fa0086b3cc5bf380ac616bf3b26e721e54723253cc0418ec7ab42823993395232a5f759b93538d252a4ddbc3b2b4a2672a0e6f5b92fa8c49481ecd3399cdcd0;
  0x18f0700a73e05f617bc0a8c953c6752b9dcf935cd3e008ded0bcb9a4c3b245a2c418021aebac6872bd7ed0e313cbce431e90550c1bac0d7067ec171583b2ea38a;
  0x15c9e51413ef5171beb2a9b7c3d57242d02adec443ef06ce2a86926d63c64567ee91c029bbc06c004303e88a73dfcdef99bca7870bc012622cacb47df3c6ef0d9;
  0x1b8ffe8583f93276256c14fb53df7dd25bfaca4a53f90f02cdf9e43f53d52bcc94b794506bcf5d9061bc92cdd3eea995d5683a018bcf103e8507bdcef3d5db6b1;
  0x1224609ce3fde11bf4534138d3e4f387df39231953fe628f172e1b9c93decb3aa87ff42c2bd93d77e403539553f845f418d54f8f4bd918be9a36151603dfafc46;
  0x14e501509bfcfde37064d6f2b3e62e3f2142293743ffad0f432a1708b3e20c6e958609cd9bddf263804d3e2f53fb7d0eb481f571bbde6f4b1883cbb323e452e99;
  0x1e0fc9792bfcf5934a81ef5cf3e3932c702c358523fd1e2a8a37f0c52be32094dfb4054233dd0819d0bd0ac37bfc99a93fffbd6a1bdfbc7844b2cf265be3672f8;
  0x1622a1aedbf673cfab4257c0d3dcb38a84050901c3f63523dd96226353e1f577d227686e13dd03cb83faaf7aa3fb63ef1b4faeb04bdd2871b27c33ad4be361545;
  0x161ebafee3f673cfab4257c0d3dcb38a8403cff1f3f63523dd96226363dc2fa51aded28963d6812a4c706d4193f5af0b6ed143e56bd6403e46c61bd07bdd05eb2;
  0x1e0ab58d93fcf5934a81ef5ce3e3932c7034021b53fd1e2a8a37f0c513dc2fa51af5d7f72bd6812a4db684fbc3f5af0b6ed143e57bd6403e44ee060a33dd05eb2;
  0x150da253b3fcfde37064d6f2d3e62e3f21340a4e23ffad0f432a1708b3e1f577d22b58d93bdd03cb85e78175e3fb63ef1b4faeb05bdd2871ac2664d243e361545;
  0x12281ce4fbfde11bf4534138e3e4f387df35ae8343fe628f172e1b9c9be32094dfa976b13bdd0819c952c3aa2bfc99a93fffbd6a4bdfbc7842f8edbfc3e3672f8;
  0x1b89d40c8bf93276256c14fb53df7dd25bfbce9503f90f02cdf9e43f53e20c6e958e31b153ddf2637efdf9dce3fb7d0eb481f571cbde6f4b13931253fbe452e99;
  0x15c583cd2bef5171beb2a9b7c3d57242d0451d4d43ef06ce2a86926d73decb3aa8865f9bf3d93d77e512e3dc23f845f418d54f8f3bd918be9b69a6ad2bdfafc46;
  0x18f858390be05f617bc0a8c953c6752b9dc861ee93e008ded0bcb9a4b3d52bcc94c382cb93cf5d905fcdb28543eea995d5683a019bcf103e850df3a16bd5db6b1;
  0x10fce308cbcc5bf380ac616bf3b26e721e4f4e4853cc0418ec7ab42823c64567ee8baa9bf3c06c0041b297b373dfcdef99bca7871bc012622c78cdf1bbc6ef0d9;
  0x14de4bed6bb347c76411c28373995875f788fa4863b2e8fc4d840361e3b245a2c408810103ac6872c25911d223cbce431e90550c1bac0d70636d2e071bb2ea38a;
  0x1660bc0ceb9525bfba5f61f0337b34877505f7c24394b5fa648ab9d523993395233b9f4ae393538d27e1a09833b2b4a2672a0e6f6b92fa8c445a6df41b99cdcd0;
  0x1028440c6b71f4e1addc01cbc35807013a8ea6d8e371755a6c0cdf80737b13d6d1b59da74375304c92e02872c39487928ab3ecfe9b74c5b56289ebf87b7b9ddb5;
  0x1f13cb7f3b499640ebeb7edc632faa9e74658d9083492eceacdd1259f357d66d0509c8295352036f7e8defa343714de6982ddd79bb5182c333ce9185cb5860d74;
  0x10585f78bb1c3977bd4ea89a7302492dc0a15626531bd34aa60fa566732f7d91a4321bc8b329a4d835f92daa73490ed4de60c1bb3b2939aed6bb52de5b301e2e5;
  0x136ce545eae9cc34a222051ab2cfe3451a9cac22a2e957046c8dba061302266c9e009270d2fc44b9e282b7a0d31ba1f48f2c02d60afbe41320bccfa67b02b9a36;
  0x1e5ee290cab241606ffab8dd9298517bab9ca9a8b2b1df1488c0b411e2cfb03fbce9448b82c9dcbbfc71602b82e932cdacdfbc3bfac963564c9d483a1ad0442fe;
  0x1a284990ba75ab0322e4da39925bc069a55c57a3a2753e46b2400a5f52982dda99beab5772924ceb4bebde47b2b1ac808df3a76b5a91f0496205c9556a98c4c7e;
  0x17b09c397275ab0324d5c887d25b966ae55b302e92753e46b3b26e52925b91128bc87391e255ba5946b1e090f2751cacc0ad6665ea5549b50fe8a5530a5c2ccde;
  0x136353b2b2b241607170b885f29831e078c380afc2b1df148aee3a51625b6b82c8a4e1cb6a55e80e7940fd9a62751cacc1f8afedea556bc6a019e37fc25c10a21;
  0x1675950212e9cc34a4399447b2cfb602a5700c3112e957046e1ce8c7e29811959d8d4ecada926f51dc83adeb72b1ac808fe651989a9211c8b689b8df72989a607;
  0x1ba00b89c31c3977bebb740a93022a59a6cca85b231bd34aa82f739df2cf87c483bca8108aca06ff6170bb5b92e932cdae44c6420ac9880dd00d4646e2d025d37;
  0x1486e71e13499640edc444ce832f82aa363097fc83492eceae3d75dec3020ad9c2002e26fafc6647b3e60a16331ba1f4911266ec4afc0b0c0e7b6094f30290470;
  0x1904314e9371f4e1b022e70a9357dcbf4fb49bdcc371755a6dbf5bdae32f59d57a9738f0ab29d05494eff8a913490ed4df9bef1b1b295a1884e446ff133003612;
  0x11d30a7af39525bfbbb53acea37b17a26edb8044f394b5fa66886b0d8357aa5e80418a747b521e3e3a910f4013714de699b270439b51aaba0bec555bd3583fcbd;
  0x1920317703b347c7658f357c5399383379caae9e33b2e8fc4fbd109aa37af403155853d77b754fbe0d286b69239487928c7b9d2a9b74f49718b24f40337b77191;
  0x1396cd5393cc5bf382414e12b3b24c2088f56c51e3cc0418eda963a4039916c6ce90c5dc1b9376a31b90b439a3b2b4a269262f574b931771d890749f1399a28d4;
  0x1326d670d3e05f617d59932da3c65238cf5a226573e008ded1f0f71713b227239b4b354e2bac8db170b2040d33cbce4320aa48ea6bac2947b517bc78b3b2bc4f8;
  0x1f19e51423ef5171c03b5c3153d54f95c282f0daf3ef06ce2bb868aa13c626ee486b59c36bc0919cf89d821ae3dfcdef9bd63a33abc02ebc443f885ad3c6c0b0a;
  0x1f0331b8c3f9327626d0b92503df5a1022e27da183f90f02cf35471463d50fb8dbd794507bcf81af31bc92c513eea995d7577f31dbcf2c600e5a0f57a3d5aee4d;
  0x1aaac70343fde11bf68323f0b3e4c4bf8f4994ddf3fe628f18cab8d463dea03895398dc5ebd95e45bcd0205a13f845f41a50a2b94bd935c10198313353df8754b;
  0x1fe83483cbfcfde372b6377f03e611f0bac5159d03ffad0f451d674943e1e695c958e0685bde12f18dc038aa43fb7d0eb63d69054bde953ee71b803ed3e4332c1;
  0x1f5c7cac5bfcf5934cc9a34d33e36d6a4d25a9b443fd1e2a8b84f69a3be3058e1820d20ef3dd2363e589d79bcbfc99a941dc7a85fbdfea659564028b8be3458bf;
  0x1ce3a1c41bf673cfacf308b783dc8ac05d24b45753f63523defde48cb3e1c6811008353ae3dd1ea3b5477c47c3fb63ef1cede58fdbdd47135f08d67d6be3403d3;
  0x1cda42caa3f673cfacf308b773dc8ac05d3e8e3e13f63523defde48ca3dc13352e01c8efc3d6a8f6d75e06db43f5af0b70c6e3868bd6615576a98d8d3bdcdac73;
  0x1f4f825a63fcf5934cc9a34d33e36d6a4d266764a3fd1e2a8b84f69a23dc13352e090b2a7bd6a8f6d8e9b82543f5af0b70c6e3868bd661557478f95213dcdac73;
  0x1fe0d586f3fcfde372b6377f03e611f0bad3d095f3ffad0f451d674943e1c6810ff825a63bdd1ea3b51ab4a243fb63ef1cede58fdbdd47135a6ad89663e3403d3;
  0x1aa4e9b1bbfde11bf68323f0b3e4c4bf8f47bf9173fe628f18cab8d46be3058e183ca9e44bdd2363e61f9064cbfc99a941dc7a861bdfea659a61807903e3458bf;
  0x1f09340c8bf9327626d0b92503df5a1022e5d43713f90f02cf35471453e1e695c9a2c9c903de12f18f32302263fb7d0eb63d69056bde953ee8503a9febe4332c1;
  0x1f21b8005bef5171c03b5c3153d54f95c27ddc5703ef06ce2bb868aa13dea038952edf9bf3d95e45b932e3dc23f845f41a50a2b94bd935c10340b6555bdf8754b;
  0x1321168c4be05f617d59932db3c65238cf54359de3e008ded1f0f71723d50fb8dbe99ffed3cf81af31c4ff5213eea995d7577f31dbcf2c600ba3b200fbd5aee4d;
  0x139abd1d2bcc5bf382414e12a3b24c208902b1fe33cc0418eda963a403c626ee4865700f23c0919cf43d8c8043dfcdef9bd63a33abc02ebc468588b93bc6c0b0a;
  0x1911fb8d1bb347c7658f357c5399383379c27297c3b2e8fc4fbd109aa3b227239b61397b73ac8db1715f636bc3cbce4320aa48ea6bac2947b5888fb56bb2bc4f8;
  0x11cfcb4fdb9525bfbbb53acea37b17a26ecbea6b2394b5fa66886b0d739916c6ce8a8a9c139376a31b445b44f3b2b4a269262f573b931771d899a9c00b99a28d4;
  0x1917a6ac0b71f4e1b022e70a9357dcbf4fdc1355b371755a6dbf5bdae37af403155e0be433754fbe0b0847f0239487928c7b9d2a9b74f497188e73a98b7b77191;
  0x1489fde29b499640edc444ce832f82aa361911ab53492eceae3d75deb357aa5e80431bc373521e3e39fd7fad83714de699b27043ab51aaba11584632fb583fcbd;
  0x1bb527003b1c3977bebb740a83022a59a6d1fc15431bd34aa82f739df32f59d57a9f47c20329d054953db72913490ed4df9bef1b1b295a1880cff90e8b3003612;
  0x167818380ae9cc34a4399447b2cfb602a57714ee22e957046e1ce8c7e3020ad9c20549ee62fc6647b1b6cbace31ba1f4911266ec3afc0b0c0eed6b2aeb0290470;
  0x135ee28acab241607170b885f29831e078b5d36592b1df148aee3a5152cf87c483bb4de4c2ca06ff610587b372e932cdae44c6420ac9880dcee1264dcad025d37;
  0x17b5165d3a75ab0324d5c887d25b966ae556c8cab2753e46b3b26e52929811959d8c4ab502926f51dbebdf3dd2b1ac808fe651989a9211c8b6269a7eda989a607;
  0x1ae79ed94275ab0326939d15125b688227e198ed52753e46b4febbb5625b6b82c8a82b150255e80e7918470272751cacc1f8afedea556bc69f8074207a5c10a21;
  0x1810207f82b2416072c042a132980f53285953d2a2b1df148ce26bae625b4272d09e7b651a560888396d4b9502751cacc321e84aca558a5757086e5a125be3ac3;
  0x11ebfb6882e9cc34a61a10ce22cf84884f284ff872e957046f830b041297e55c428103fc2a928e2ecfb6e11732b1ac8091a5b45fea9228c9bee6885dd2986c053;
  0x1cacd856931c3977c002bc39130208a5fdde97aeb31bd34aaa17561972cf5b836b3fdb43caca1d18630a54efe2e932cdaf851930eac9a8fecd574fae92d004a2a;
  0x1e6767d5c3499640ef6c6cf3832f56fcad5020c033492eceaf799cb87301d969ffc6c2b47afc846237193d42231ba1f492c6c6b84afc217c2c28d2a0b302630fd;
  0x1325cae83371f4e1b22ddb816357a6e4c85939190371755a6f452a54132f32c4b0bd9f571b29f7582f565f0613490ed4e0b6b368ab29772cefa2d104d32fcc28d;
  0x16f170e1539525bfbce7ec84337af017fbd4e2230394b5fa6851b292d3577a34cd6e57415b52364b3af775a0b3714de69b0f0dd1db51ce94cf2775f373581bac0;
  0x1560317703b347c766e56ec5c39914ef47243bdba3b2e8fc51bb997c437abb87c98b870acb756bf3c2c204fbe39487928e14714d8b750f534ddbb02f137b4cba0;
  0x1ce39a2063cc5bf383ac970c93b2269c1e9e2770e3cc0418eeb8f2e64398ee9259618bb83b93961d7390b43213b2b4a26aee0fb67b932eeca4f8ea5b63997345a;
  0x17bd3cd743e05f617ec870d3c3c62c0425137f86d3e008ded305821693b205ccce6e68816bacaf1bbbe5373853cbce43228ceb20ebac42421e4de1f1a3b28a1ef;
  0x12d6b1e0f3ef5171c19bace043d529ad5915539af3ef06ce2ccacbb753c6059d8174f35d0bc0b35b86371bac53dfcdef9db885372bc0482c02b002c593c68e017;
  0x16a9981f23f932762810b0b0f3df32f8b8c74e8743f90f02d0503b57d3d4e20e74958f075bcfa21724efc5f073eea995d913d6585bcf459d0df444a543d57e385;
  0x1412c70343fde11bf879739d23e4919b086b5800c3fe628f1a3ce7f0d3de713458acc0f93bd97bb3fe69b9ec83f845f41ba4f41fabd94fc7bacab58b93df5b204;
  0x1e483483bbfcfde374ca935543e5e5fde7240d89b3ffad0f46dd5f0fb3e1af9ec458e068bbde2a0b89c038a413fb7d0eb7cb42b19bdeb74ba6d04fc0c3e410795;
  0x1a319645fbfcf5934ed5513493e3442342f4203a23fd1e2a8cafbd93bbe2d004f261a41db3dd3bdfa989d7a61bfc99a9438831703be009ccf0df254cdbe320c5d;
  0x164879c41bf673cfae773b0a63dc5e28fbdc8a6cf3f63523e040a808c3e19329c2329ba153dd36b93bade2ae63fb63ef1e618433bbdd628eabdfc02d6be31c109;
  0x16570f9773f673cfae773b0a63dc5e28fbdd1d8933f63523e040a808e3dbe83d80a831df83d6ccababe606db43f5af0b7288edddbbd67f059199df477bdca525a;
  0x1a2ab58da3fcf5934ed5513493e3442342f410f963fd1e2a8cafbd93c3dbe83d80b87cbb5bd6ccabac1ceb4fd3f5af0b7288edddbbd67f058cb66cc673dca525a;
  0x1e5a6f2093fcfde374ca935553e5e5fde72a8a4853ffad0f46dd5f0fb3e19329c22b58d98bdd36b93de7816903fb63ef1e618433bbdd628eac23ea7223e31c109;
  0x141f50182bfde11bf879739d23e4919b086f1d10e3fe628f1a3ce7f0dbe2d004f22c86fb8bdd3bdfac85f6bafbfc99a9438831702be009ccf09d533093e320c5d;
  0x16ab940c8bf932762810b0b0f3df32f8b8c2724c43f90f02d0503b57d3e1af9ec455fcfc43de2a0b88cbc9bca3fb7d0eb7cb42b18bdeb74ba695fab86be410795;
  0x12d57c66bbef5171c19bace043d529ad591bac3d93ef06ce2ccacbb763de713458c6df9bf3d97bb3f8cae3dc33f845f41ba4f41fbbd94fc7b9a50823dbdf5b204;
  0x17e595ac4be05f617ec870d3d3c62c04250b554ce3e008ded3058216a3d4e20e748474ca63cfa21723cf18eba3eea995d913d6585bcf459d0bf6363d8bd57e385;
  0x1cde9ec26bcc5bf383ac970c93b2269c1e96fbe463cc0418eeb8f2e643c6059d81688f8f23c0b35b84d3048043dfcdef9db885373bc0482c03faea38fbc68e017;
  0x155c1dc1bbb347c766e56ec5c39914ef47267d79b3b2e8fc51bb997c23b205ccce65c0eaa3acaf1bbb64723893cbce43228ceb20ebac4242237a3e5a2bb28a1ef;
  0x16f196ce5b9525bfbce7ec84337af017fbc5a5da5394b5fa6851b292e398ee92596520f1f393961d72e9527693b2b4a26aee0fb67b932eeca5ed04178b997345a;
  0x1325dbb0ab71f4e1b22ddb816357a6e4c8664fa99371755a6f452a54037abb87c99399eeb3756bf3c2bbb2d3239487928e14714d9b750f534d2084280b7b4cba0;
  0x1e8d38d9ab499640ef6c6cf3832f56fcad43757b33492eceaf799cb863577a34cd71517f7352364b3af4a98ee3714de69b0f0dd1eb51ce94ccf8e2e2fb581bac0;
  0x1cb1ef1cfb1c3977c002bc39130208a5fdf0902d731bd34aaa175619832f32c4b0c5c6982329f7582fb3890c33490ed4e0b6b368bb29772cedbf57bf1b2fcc28d;
  0x11ee7e64aae9cc34a61a10ce32cf84884f2475f152e957046f830b041301d969fffb1db0d2fc846238eac6db931ba1f492c6c6b84afc217c2bd4bc76bb02630fd;
  0x180baf524ab2416072c042a132980f53283ce9b732b1df148ce26bae62cf5b836b41624c62ca1d18629f2aebd2e932cdaf851930eac9a8fecca650720ad004a2a;
  0x1af093206a75ab0326939d15125b688227d68b0d42753e46b4febbb56297e55c42758c5502928e2ecf1f134be2b1ac8091a5b45ffa9228c9be4d8cdeca986c053;
  0x11fad20c8275ab03281a0cb8925b37209ca36fb182753e46b621bf43f25b4272d0963681725608883958f052e2751cacc321e84aca558a57578abe568a5be3ac3;
  0x165686e5f2b2416073e61bf07297d451d401f2f342b1df148e9876f9a25b1647e02b4831ea561a7d09d3b1f722751cacc42632b6aa55a51be164a2f5325ba16bd;
  0x1497f6d0f2e9cc34a7beda1452cf4f5013f1fae362e9570470bcadc76297a2e0abf4372f7a92a93611507aaa52b1ac80932d80c2da923cef0c4aec8472983a288;
  0x1d89a523631c3977c1215a431301c8cbb9ddb7a4c31bd34aabc29a01f2cf2be98f0fdb43eaca3072810a54eb42e932cdb09d9f4ceac9c5d7f2657dd652cfc1de7;
  0x178a9b0903499640f0dfe191c32f2801893a8b6143492eceb08e7b74b301989151ed291aeafc9ebf324c706f031ba1f49444ee61bafc352294c822001302326d4;
  0x1d852f69f371f4e1b3f7d5e2b3576cf7a51020ca4371755a709a89e2a32f08bf970a6c23fb2a0cc16c1195e553490ed4e1ae55805b2990a464910b7dc32f8d20f;
  0x1cbe3dae239525bfbdf482efb37aac2405f9eb2ea394b5fa69e2290293574666ab14bda7db524b5b422aa8ced3714de69c405aa8cb51edfb2cab830c6357e9a19;
  0x1a60317713b347c7681122a62398de00a3e9f82fe3b2e8fc537ab357e37a7ec70111ed713b7584a839f53829339487928f7a79781b7521be2cc599dd037b1f26a;
  0x197066ed33cc5bf384eabcb343b1fc82bbcab246e3cc0418efa6c46cc398aad3c2818bb85b93b1ae8b90b42b73b2b4a26c7d4b9feb93437c942e359dd399406aa;
  0x1c40700a73e05f618009b94143c602ebd04507f413e008ded3f7b0d7d3b1c3e11de337694baccc5f2b186a6483cbce43243395cabbac58220bc5997e63b25422c;
  0x117d184753ef5171c2d03729d3d500e709b72b6343ef06ce2dbb171a73c5c38f79438053cbc0d0e8c703e87213dfcdef9f5ee3839bc05e72b26e9b3423c6577d0;
  0x1f0331b8c3f932762928e6c4c3df08ec7e9626b2c3f90f02d148076fc3d4a006b8e8c23aabcfbe785a895f8343eea995da98f7f8abcf5bb742504de903d549dd7;
  0x14d58e0693fde11bfa3159d623e45a9861589c6cf3fe628f1b81184903de3ea1de398dc61bd9957a1cd0204cb3f845f41ccefcbb9bd966929a5158f1a3df2b93f;
  0x15aa02a10bfcfde3769cc9f8a3e5a36c2c7b4b88e3ffad0f4865adee73e1747fa0d8e068fbde3e46a9c0389eb3fb7d0eb927ad986bded51d49ef930c63e3d64d9;
  0x1cc992f24bfcf593509fedfbd3e317bd165e8afe73fd1e2a8db565155be29075b3880a8403dd515098bd0ae23bfc99a944fec3aa4be01bd7c66f50079be2f26f9;
  0x12190e90ebf673cfafcb31a833dc2e3250286faa83f63523e15b511873e15bf07d6f686e23dd4bd0b87aaf7b63fb63ef1fa6f6690bdd7a9fd6cdf4cc1be2ea4f3;
  0x120d75fdd3f673cfafcb31a823dc2e325013fd3c83f63523e15b511873dba55cee19eb7913d6ebf0ce793a0e73f5af0b74130d611bd6990564dfaa5babdc6b75c;
  0x1cd56b1b33fcf593509fedfbc3e317bd16607971e3fd1e2a8db5651553dba55cee0bafeeabd6ebf0cdb684e1e3f5af0b74130d611bd6990564e6798913dc6b75c;
  0x1634de4133fcfde3769cc9f8b3e5a36c2c7dfebf73ffad0f4865adee73e15bf07d2b58d9bbdd4bd0b5e78163c3fb63ef1fa6f6690bdd7a9fd6128102b3e2ea4f3;
  0x14ebd3637bfde11bfa3159d623e45a986158d340e3fe628f1b8118490be29075b32c86fb5bdd5150ac85f6acebfc99a944fec3aa3be01bd7c6a8f3ecc3e2f26f9;
  0x1eed4a72fbf932762928e6c4c3df08ec7ea67775a3f90f02d148076fc3e1747fa132c9c913de3e46a9b2302393fb7d0eb927ad986bded51d46379d61abe3d64d9;
  0x117c0899ebef5171c2d03729e3d500e709a32032f3ef06ce2dbb171a83de3ea1de496c68c3d9957a1c847d75e3f845f41ccefcbb7bd966929b7ad6931bdf2b93f;
  0x1c34885f7be05f618009b94143c602ebd0389f8e13e008ded3f7b0d7d3d4a006b8ec9730d3cfbe785c0ce5b873eea995da98f7f8abcf5bb7481878047bd549dd7;
  0x1978de826bcc5bf384eabcb343b1fc82bb9d926c13cc0418efa6c46cb3c5c38f794c5504a3c0d0e8c3aa914d13dfcdef9f5ee3839bc05e72b46e88b22bc6577d0;
  0x1a6037322bb347c7681122a63398de00a3eb03a0e3b2e8fc537ab357d3b1c3e11dbd95e543accc5f29af27b893cbce43243395cabbac582207855b91fbb25422c;
  0x1cb9e7266b9525bfbdf482efb37aac2405f6ec32c394b5fa69e22902a398aad3c272645c0393b1ae8f8fbfb1c3b2b4a26c7d4b9feb93437c94c14af98b99406aa;
  0x1d7f7088cb71f4e1b3f7d5e2a3576cf7a5160d05a371755a709a89e2a37a7ec7011344b5037584a83eae4ec8939487928f7a79780b7521be2e5a9cc9bb7b1f26a;
  0x17b01becbb499640f0dfe191c32f2801892c073a03492eceb08e7b74b3574666ab18c1d623524b5b42a53b9373714de69c405aa8db51edfb2d04038b1b57e9a19;
  0x1d8eb7da8b1c3977c1215a430301c8cbba0f1333631bd34aabc29a01f32f08bf971b4ed2e32a0cc16c46d84153490ed4e1ae55804b2990a46451b7487b2f8d20f;
  0x149cfc64fae9cc34a7beda1462cf4f5013fc0503e2e9570470bcadc75301989152225e1c82fc9ebf301ea73fd31ba1f49444ee61bafc352296007febcb02326d4;
  0x165215b42ab2416073e61bf07297d451d3dcee4652b1df148e9876f992cf2be98f09dfd7b2ca3072809f3340a2e932cdb09d9f4cdac9c5d7f60e77d8aacfc1de7;
  0x1203c6533a75ab03281a0cb8925b37209c98bffb12753e46b621bf43e297a2e0abd588d3c292a93610b8ada312b1ac80932d80c2da923cef0d60a5888a983a288;
  0x1a446ba61275ab03296554dba25b02c001d05a06f2753e46b718ab85a25b1647e0272a4922561a7d0bbf56bd92751cacc42632b6aa55a51be481ec01ca5ba16bd;
  0x1c2353b2c2b2416074df6ffd9297857abc43e59602b1df14900c243c725aceddb6635d30ba5629b96106e526c2751cacc5030d77aa55bbd22892ea08e25b5b264;
  0x176e5d3762e9cc34a923e2b002cf16dd28ad62e9f2e9570471c6cbd352975c5c5f7a9d95ea92c0250483add822b1ac809479f0ceaa924e06ff76b445729805454;
  0x1b734a46c31c3977c2148b8693017be5467f803e031bd34aad2d21f3e2cef2d89332e9bb0aca40de11d721b432e932cdb18ba4fa1ac9de5243297cb8d2cf76228;
  0x19d1016f63499640f21b0ede432eec593b470a6ed3492eceb1796779c30153c9598d291b0afcb51daa4c7069c31ba1f495892fbc5afc45ced74cbfe1c301fdae8;
  0x1e91fc36c371f4e1b57c6d12b3572f86b528af402371755a71bc30e5832eb85b8be80b7b2b2a1b4030de62aec3490ed4e28072dcfb29a64023121272132f4a45f;
  0x1f2c7b5c539525bfbed867e2c37a641083bed57c1394b5fa6b35f30de3570f73d137f0db1b525d3a4dc4426443714de69d4366171b52044fc849e25a135797340;
  0x191364aa43b347c7690f6e38f3988d883f5be67313b2e8fc54f60fe3437a3e568351ed714b75999e75f538244394879290aa42f76b75315eb1b21365f37add9eb;
  0x122066ed33cc5bf385f8aea903b1a6e788ddd09eb3cc0418f0708de4f39862f8dc3b2551fb93c912745d80f2c3b2b4a26dd00acbfb9354ef015a5aaac3990a79b;
  0x1886d670e3e05f61811a545d23c5aeaa43dadf3943e008ded4c52e45b3b177ce8c6337696bace53397186a5eb3cbce43259a36daebac6ab184d8677e13b21ae00;
  0x1e737eadc3ef5171c3d6025fa3d4ab4eb5814f0f93ef06ce2e86fa6663c5778aa636b3870bc0e9fbdc9d8205c3dfcdefa0c543c83bc071595fb2a9c313c61da9c;
  0x119996a4c3f932762a16a88a03deb8a63c51d8dc03f90f02d21a486fa3d459fd4efbf56debcfd68ccc22f91733eea995dbe324b3abcf6e7836bb9d2403d512554;
  0x12abf46d03fde11bfba69a1213e4203f39582685f3fe628f1c942a99f3de08fdd3465a92fbd9ab58933686adf3f845f41dcbddc5fbd979e97730646483def24a4;
  0x13f6cf6dcbfcfde378285dff83e55cd063f39c3413ffad0f49b28cb143e135ca1fbf46cfabde4f712a8d0566f3fb7d0eba4f4ebadbdeee6a6b588edd83e387210;
  0x13b2f958abfcf59352250ef713e2d14a7a90322463fd1e2a8e9368088be24d0b279b3db713dd6381f656a4834bfc99a9463c95ba6be02b26d69341c2abe29e869;
  0x18e2702a7bf673cfb0eba669e3dbf6a5335c18a793f63523e24b26db23e1215d67a8353ae3dd5db627a77c4863fb63ef20bb19d34bdd8f0b92eb9c2a9be297c47;
  0x18e0a93113f673cfb0eba669e3dbf6a53348c6cc13f63523e24b26db23db5e6d8533beac53d7033c8f1fd03a73f5af0b75617662abd6af14cbdae3796bdc2e45c;
  0x13b237e803fcf59352250ef713e2d14a7a8cebca03fd1e2a8e93680883db5e6d854549885bd7033c8d41a8d443f5af0b75617662abd6af14ca2ac7eca3dc2e45c;
  0x13e8117473fcfde378285dff73e55cd06400a40093ffad0f49b28cb143e1215d6791bf403bdd5db627811af8f3fb63ef20bb19d35bdd8f0b9313187a43e297c47;
  0x12b70696abfde11bfba69a1223e4203f394c771953fe628f1c942a99fbe24d0b279fba2e5bdd6381f2ec5d079bfc99a9463c95ba6be02b26d3c5d928f3e29e869;
  0x11bd14e5dbf932762a16a88a03deb8a63c18452ac3f90f02d21a486fa3e135ca1f5f9695f3de4f7124d8968a73fb7d0eba4f4ebaebdeee6a6bc6f94e9be387210;
  0x1e78f8005bef5171c3d6025fb3d4ab4eb584a50ea3ef06ce2e86fa6663de08fdd3386c68c3d9ab58984c7d75e3f845f41dcbddc5fbd979e974afa69d2bdef24a4;
  0x185be4790be05f61811a545d23c5aeaa43e67dbf83e008ded4c52e45a3d459fd4efd5ffd93cfd68cd48f7f5213eea995dbe324b3abcf6e7836f0149e6bd512554;
  0x11f78b5f9bcc5bf385f8aea903b1a6e788d8f6c423cc0418f0708de4f3c5778aa63b5837d3c0e9fbde708fb373dfcdefa0c543c82bc0715962a950690bc61da9c;
  0x190a11fa9bb347c7690f6e38f3988d883f7b2b90a3b2e8fc54f60fe333b177ce8c2d5213a3ace53395e7ad8563cbce43259a36daebac6ab187e6ff110bb21ae00;
  0x1f2c1516fb9525bfbed867e2c37a641083cd1e46e394b5fa6b35f30df39862f8dc4053952393c9127495f39cf3b2b4a26dd00acbfb9354ef00be7701cb990a79b;
  0x1e8754189b71f4e1b57c6d12b3572f86b5447bf7f371755a71bc30e5937a3e56834c042e5375999e79fdbdee7394879290aa42f77b75315eb12bc5c6db7add9eb;
  0x19d63f5d7b499640f21b0ede432eec593b2f6662e3492eceb1796779c3570f73d13f3ebed3525d3a4ca79a3d73714de69d4366171b52044fc8a36d93cb5797340;
  0x1b9d68ebfb1c3977c2148b8693017be5469cdd4a331bd34aad2d21f3e32eb85b8be2d5dd532a1b403119398363490ed4e28072dcfb29a640225fb6b46b2f4a45f;
  0x17736277aae9cc34a923e2b012cf16dd28b3de7412e9570471c6cbd3530153c95994020692fcb51da81f37fb931ba1f495892fbc4afc45ced82fa8b05b01fdae8;
  0x1c1ee27d1ab2416074df6ffd9297857abc2f22ea62b1df14900c243c72cef2d8932558b802ca40de116c0703c2e932cdb18ba4fa0ac9de5244bf8ffa6acf76228;
  0x1a6d5fec7a75ab03296554dba25b02c001c980f132753e46b718ab8592975c5c5f763dae6292c02503ebe174b2b1ac809479f0ceaa924e06ffdc4282da9805454;
  0x144ad20c8275ab032a7244be625a97c2f38d53b2c2753e46b7e11fb5825aceddb64ac866225629b960f289f462751cacc5030d77aa55bbd22861c2f50a5b5b264;
  0x1b6d0dcbe2b2416075a9d815a29732e369c7f46812b1df149139df1fe25a6cb6843690640a563617b1d3b1f0b2751cacc5b6580e1a55ce423a3046f0e25b1188e;
  0x13f4c39dd2e9cc34aa45ba6442ceb77572730ca5d2e95704729ed5109297127d3834372f9a92d2c309507aa0a2b1ac809587d0ea1a925be7632022c162979bbbd;
  0x16d9b0ad331c3977c2d9f87163012b5638a13372f31bd34aae537024e2ce89102b261cee4aca4e3282a3ee7df2e932cdb24cdf654ac9f2313d2395dfd2cf26cc3;
  0x18a767d5d3499640f31aebcd732e83f18b6ffb9383492eceb2381d98f3010bbba946c2b4aafcc74677193d32631ba1f496906b5b3afc5357de7dd0cae3019199e;
  0x12fec9039371f4e1b6b7e3077356de52e7dfc8fb3371755a72a7553f632e5afa3efb3eae7b2a270497ab2f78d3490ed4e32b05792b29b7cacfa8a4b4b32f043cb;
  0x1c594829239525bfbf916982437a188f28b4f9c8b394b5fa6c49cafb4356abc77276481cab526bbc695ddbfa83714de69e15b1752b520f203fb01d39035740da9;
  0x1d0062ee23b347c769ddde8c3398393bc595207c53b2e8fc562a07d4e379f5aa5eca41491b75aaa2c38ed1b9f394879291a0e0d4fb753e0e4f2f0d00737a78569;
  0x15e0cdda63cc5bf386d3d36683b14d39b3035010d3cc0418f1145dd1839817b2cea18bb87b93dc0f7b90b42193b2b4a26ee30a135b936318de95848ce398a3ef9;
  0x1ac7467b63e05f6181f7a210e3c55357226e5d8273e008ded56bffc1c3b1281d756337697bacf95bb7186a5a13cbce4326bd5a255bac79c2cdb8734e53b1bdc7a;
  0x15c096f513ef5171c4aa891313d450b1d9fcbc9cf3ef06ce2f2c7eef83c527e7f55d19ed8bc0fe56dfd0b53453dfcdefa1e83278bbc080b16e12ce5193c5c22c7;
  0x176ffd0b23f932762ad7abd4b3de5b351903efed43f90f02d2c4f7fa23d4109ee3025bd46bcfea192b562c45e3eea995dcef2e841bcf7db1a91d26ae13d4b051a;
  0x148f27a033fde11bfcd59c1893e3c63ed64a403fb3fe628f1d7378b8f3dda198efbfe8592bd9bd1970035376a3f845f41e9927caabd9899c99ae784753de88a00;
  0x180a02a0fbfcfde37969802593e512d8a2bc953e33ffad0f4ac0c6ade3e0e831b5e4f4060bde5d6098f36bc9d3fb7d0ebb3f4d3f2bdf017a4c422544d3e334302;
  0x191d2c8bdbfcf5935360f4c863e26e9fa544f30ee3fd1e2a8f47a3132be2066b84080a83d3dd7246bcbd0aef9bfc99a9473e98108be0379458fe80eadbe2469f9;
  0x1a75b9ee8bf673cfb1d5d22503db8c0e8b345b03e3f63523e30dda0593e0c801d3353742a3dd6c3d5f8de2aef3fb63ef219b45a65bdd9f9f731b88a04be2414c5;
  0x1a21526223f673cfb1d5d22503db8c0e8b26c361a3f63523e30dda0583db141e28c7d845e3d70e018dc169d413f5af0b7670f06c6bd6c0fd65d4b11dabdbdc592;
  0x18fbd181a3fcf5935360f4c863e26e9fa5791b87e3fd1e2a8f47a31323db141e28c549886bd70e019141a8d1c3f5af0b7670f06c5bd6c0fd6255bb72d3dbdc592;
  0x1841ab0e13fcfde379698025a3e512d8a2bd0719a3ffad0f4ac0c6add3e0c801d33d181a3bdd6c3d5eb44e28b3fb63ef219b45a67bdd9f9f76b9c8a593e2414c5;
  0x14b239c9dbfde11bfcd59c1893e3c63ed647debaf3fe628f1d7378b8fbe2066b83f953c7dbdd7246be1f90317bfc99a9473e98107be03794586841bb83e2469f9;
  0x177d0e7f7bf932762ad7abd4c3de5b351910070a23f90f02d2c4f7fa23e0e831b5d8c6c573de5d609abefcf133fb7d0ebb3f4d3f0bdf017a4ba421a37be334302;
  0x15c3759a3bef5171c4aa891303d450b1d9e28730f3ef06ce2f2c7eef83dda198efc98c04b3d9bd19719fb0a923f845f41e9927caabd9899c9838d4008bde88a00;
  0x1a8f034babe05f6181f7a210e3c553572263143863e008ded56bffc1c3d4109ee31e199733cfea192b19b28543eea995dcef2e842bcf7db1a6fd11c1bbd4b051a;
  0x1616f9925bcc5bf386d3d36673b14d39b306657e73cc0418f1145dd183c527e7f562625173c0fe56e0810ae6b3dfcdefa1e83278bbc080b170477501ebc5c22c7;
  0x1d0e84308bb347c769ddde8c3398393bc57f09d1d3b2e8fc562a07d4d3b1281d7571f586d3acf95bbbea1bebc3cbce4326bd5a254bac79c2cec86f0a2bb1bdc7a;
  0x1c7340a79b9525bfbf916982537a188f28b30946c394b5fa6c49cafb539817b2ceaf607e8393dc0f766343f9c3b2b4a26ee30a135b936318de6b9c3d6b98a3ef9;
  0x12d03af92b71f4e1b6b7e3076356de52e7e695c29371755a72a7553f5379f5aa5f425e577375aaa2c564c731f394879291a0e0d50b753e0e52ad7b1eeb7a78569;
  0x18ac709ddb499640f31aebcd832e83f18b4a8e6c63492eceb2381d98f356abc7728d720df3526bbc66945cd973714de69e15b1752b520f203f678a229b5740da9;
  0x1703c9ef9b1c3977c2d9f87153012b5638a67bb5531bd34aae537024f32e5afa3f0d492ab32a270495ea7423e3490ed4e32b05792b29b7cacd71b7eaeb2f043cb;
  0x13f9c89baae9cc34aa45ba6442ceb7757254b043f2e95704729ed51083010bbba9513ee1c2fcc74674ec77a9e31ba1f496906b5b2afc5357deb7ca179b019199e;
  0x1b442b5a7ab2416075a9d815a29732e3698e7c18c2b1df149139df1ff2ce89102b1129da92ca4e328238d95752e932cdb24cdf654ac9f2313e55f2d37acf26cc3;
  0x1453c652aa75ab032a7244be725a97c2f36851d032753e46b7e11fb58297127d382b23365292d2c310b8aebf32b1ac809587d0ea1a925be763ea2946ea979bbbd;
  0x1aaf3db2a275ab032b3e4556325a2618959f04a432753e46b8792d9fd25a6cb6843b9cc282563617b1bf56c3f2751cacc5b6580e1a55ce423945c4758a5b1188e;
  0x15cd0dcbe2b24160764361346296baaef6df4e54a2b1df14921ebfc0225a070c261cf6ca7a563f79836d4b8842751cacc63e5872ba55dc3ea7618824725a8a923;
  0x1729873b92e9cc34ab21969ba2ce3cf51fea84f532e957047342b4e082968bf2aba86e5f3a92e0e259507a9d82b1ac80965487ba3a92666e1126928ef29728f60;
  0x15201713931c3977c36fba46c300afca5a40fb3c231bd34aaf32aefe92ce1b7eb1e61cee5aca584f0aa3ee7bb2e932cdb2df722b1aca00a1ff97724a12cea93e2;
  0x1f68694543499640f3dd0190632e17cd6a22e8f7c3492eceb2c8c7a373008233cc80b89c9afcd50cb7e609fc231ba1f4975818439afc5d9c328cf7da530121a72;
  0x18ea5ed3f371f4e1b7a72e02935658fd1f77a733e371755a7359b336f32df48300834a29cb2a2ff19944c91073490ed4e3ac68cc6b29c51928bf8701132e7763b;
  0x1492e1c2c39525bfc01dbfb0237994b436c8a81fd394b5fa6d1b08b9235634889a097b4feb5276bdb22aa8c4e3714de69eb5364c5b5217543c06dada0356ced41;
  0x1626c95483b347c76a7a76aab397c3d615ed569af3b2e8fc5713a3e7637969d2e6970e15fb75b78b46c204ea53948792925bf30d5b7547adcde7870e937a0f6ea;
  0x1ec0cdda63cc5bf3877a0ea3e3b0e0aca5ca54f393cc0418f190a054b39793765b764aa42b93ea76c45d80eb33b2b4a26fb3a37a5b936dd740749dc803982ee07;
  0x15e7467b63e05f61829f80c163c4e97ec5737b2b13e008ded5ea8a0543b0ab24a4466ed2fbad0452f78c352b53cbce43279a31e32bac8530bc3b953693b141843;
  0x155a308eb3ef5171c54bbf4cd3d3e5adcc31908473ef06ce2faa0ca3e3c4aad7777a33db1bc106e3d9e85a9873dfcdefa2c4e2500bc08c551920220d23c544af8;
  0x10d3303e63f932762b6a14c983ddf4d7e50598d6f3f90f02d346713f93d38940add18475abcff8ed36895f75d3eea995ddba80967bcf893e101c2e3ac3d437ced;
  0x1ccb1c0d33fde11bfdbb74df13e3479f51bbf8c743fe628f1e1cdc1b83dd2d30ab5981f2dbd9ca90f269b9da03f845f41f34e0aa1bd9958546716dbfc3de1b2dd;
  0x1f20d20ebbfcfde37a5d18b093e48c768983010c33ffad0f4b8dc1ab83e0601b91b1c0d32bde67f2b5c0389403fb7d0ebbf55975abdf0944952fca4883e2bc8ee;
  0x172d8c4aebfcf5935450949df3e2086cee6703dc23fd1e2a8fd059dd2be17a89ce83483aa3dd7d7ab989d7c0bbfc99a948024e932be04101ac6ae596bbe1d726a;
  0x1c4be054fbf673cfb287738573db1da77084480f23f63523e3a18a9373e048e4973b9da903dd7742920115e243fb63ef224551355bddac32a1a4ccda4be1cf783;
  0x1c2e1f2ef3f673cfb287738573db1da7708222f003f63523e3a18a9363da8e4c19e47d5893d7162ce0d3d03a73f5af0b773ede306bd6ce9302024582abdb57905;
  0x17246fd013fcf5935450949df3e2086cee39ea7003fd1e2a8fd059dd23da8e4c1970f9775bd7162ce00e759cc3f5af0b773ede306bd6ce9302b86f9253db57905;
  0x1f36894f63fcfde37a5d18b073e48c7689a291b663ffad0f4b8dc1ab73e048e497237e80cbdd77428f811af2f3fb63ef224551355bddac32a4a88aa123e1cf783;
  0x1cb3a6c6ebfde11bfdbb74df13e3479f51bb298c73fe628f1e1cdc1b8be17a89cf25dac2abdd7d7ab152c35debfc99a948024e930be04101a9b81c44c3e1d726a;
  0x10db0e7f7bf932762b6a14c983ddf4d7e52ab15943f90f02d346713f83e0601b9205939253de67f2b5323024b3fb7d0ebbf559759bdf094494d658e93be2bc8ee;
  0x154ab600abef5171c54bbf4cd3d3e5adcc21a0bd83ef06ce2faa0ca3e3dd2d30ab5c8c04b3d9ca90f077b0a923f845f41f34e0aa0bd99585481f5bcb1bde1b2dd;
  0x15f974b21be05f61829f80c163c4e97ec579c290d3e008ded5ea8a0533d38940adf6a7fb33cff8ed37d47f5213eea995ddba80967bcf893e0f21cdf12bd437ced;
  0x1ea19c4febcc5bf3877a0ea3e3b0e0aca5d6763ec3cc0418f190a054c3c4aad777e6ed6fa3c106e3da7bcbd9c3dfcdefa2c4e2501bc08c55161bb2563bc544af8;
  0x16348dd56bb347c76a7a76aab397c3d6159ea5ff43b2e8fc5713a3e763b0ab24a44ce210e3ad0452fa2e460f83cbce43279a31e32bac8530be5ff6f6bbb141843;
  0x14b9fca99b9525bfc01dbfb0337994b436cb2b5ef394b5fa6d1b08b9139793765b66d0a9e393ea76c337cb8e93b2b4a26fb3a37a5b936dd740652db98b982ee07;
  0x190790c08b71f4e1b7a72e02935658fd1facc7554371755a7359b336f37969d2e6452776f375b78b44d51c5a13948792925bf30d4b7547adce771d107b7a0f6ea;
  0x1f722d2e6b499640f3dd0190632e17cd6a0e183dc3492eceb2c8c7a36356348899fd1f8cf35276bdb19de99433714de69eb5364c5b5217543a7ac6afcb56ced41;
  0x152a2c66cb1c3977c36fba46c300afca5ab890a1331bd34aaf32aefe932df48300a4503e832a2ff199874a0473490ed4e3ac68cc6b29c519267b92785b2e7763b;
  0x173390d61ae9cc34ab21969bb2ce3cf51fef608032e957047342b4e083008233cccc135272fcd50cb9b99862c31ba1f4975818439afc5d9c32e6bd7c5b0121a72;
  0x15c42b560ab24160764361346296baaef69d5df3e2b1df14921ebfc012ce1b7eb1da5c3f52ca584f0a38dd60c2e932cdb2df722b1aca00a2020e4c474acea93e2;
  0x1b01263e7a75ab032b3e4556325a2618957f013f92753e46b8792d9fd2968bf2abadc1c96292e0e258b8af1b12b1ac80965487ba3a92666e12909688aa9728f60;
  0x1904e1cba275ab032bc75faf425963324b7e87e382753e46b8df5e63c25a070c2612e17c92563f798358f05fb2751cacc63e5872ba55dc3ea8b725d78a5a8a923;
  0x1c66e864a2b2416076aa90d202960b53b3edbfdda2b1df1492b891d572593db284d3872e9a5645c7baa07eba22751cacc699bf585a55e5a4f606ec56a259dc8bc;
  0x1fc9873ba2e9cc34abb5594a12cd7ecebd8564d522e9570473b0d73e6295de3572b74324ea92ea60161d476862b1ac8096de1c8a1a926d8119372cd8c29666a81;
  0x1bccfaf3f31c3977c3d45fd0030004bfb893259e431bd34aafc8b81c42cd566493cc39dccaca5f1ab8a3ee7a42e932cdb341f3ee1aca05b2ab40381002ce00cb7;
  0x1d90d28a73499640f45f71a6a32d51eee82c1deda3492eceb32a00f0c2ffd2704067d79faafcde4eb8b2d6c7131ba1f497de4a2cdafc6482b1cb33c293005dd48;
  0x1bbd92073371f4e1b848000f1355a0a999c2776bb371755a73d1930c632d2e3f8a434a29db2a35f15944c90f43490ed4e4035dd7eb29ce0a8dd1b1be332dc5611;
  0x15c5c385839525bfc07c106f3378e8c8afd94288f394b5fa6da7a869035574a22f6c90397b527e23255ddbf693714de69f206b549b521cd798f600199356177df;
  0x1ef3f90f73b347c76ae3b482739710daa971980c63b2e8fc57b0a428b378b4fec2ae1c2c0b75c0382ac204e88394879292d9ac6adb754e257d127adb537947d2f;
  0x168e688193cc5bf387e9c68cb3b02244d4c6253dd3cc0418f1e423146396e748cb1fc87b9b93f424f2c3e74fa3b2b4a2703fd4b81b93750fbef1e3b733976dcd2;
  0x1941c02a03e05f618310529003c427987646e35f23e008ded63f951683b001f14779a2063bad097653f29b90b3cbce43282e9d9c3bac8cdf3712e77273b084505;
  0x10e79450a3ef5171c5b8179883d3254a7de439e963ef06ce2ffe6df8b3c401c2acc700a7fbc10c142b81f43103dfcdefa35933382bc09427a2fbca8ab3c488242;
  0x14d32d4983f932762bcc7a7203dd2e72cdc2fb29b3f90f02d39d750ac3d2daf41b3ca284fbd001723ade495383eea995de4325a57bcf9100ff551f5a03d378969;
  0x19be4f4063fde11bfe55edba33e28bb0263c9a2df3fe628f1e8eb324a3dc6bc3ae996a4c3bd9d39df33686a4f3f845f41f9d88787bd99d8645e2aa4bf3dd5602e;
  0x19ad9edb7bfcfde37b00cf0f63e3ded4b5c6720843ffad0f4c17844d23dfa942abc9e80d0bde6f0d68f36bc593fb7d0ebc6fb28b2bdf0e80e616f1a023e20c758;
  0x17165917bbfcf59354f19fb143e13f5c97d6b97183fd1e2a902c3b57ebe0c92ea46cf6db93dd85025a56a4902bfc99a94885d6bebbe04757a1133b420be11c849;
  0x1e721a437bf673cfb2fed49c03da5900289a6ee033f63523e404cc66d3df8d38ff4a6e8543dd7eaaa50de2af23fb63ef22b799448bddb4a636880fccdbe117e11;
  0x1e75d7f773f673cfb2fed49c03da5900286221abd3f63523e404cc66c3d9e10bd4852de463d71baa6cf29d0743f5af0b77c943fb5bd6d7b4466e52c3ebda9ef10;
  0x1717a30353fcf59354f19fb143e13f5c9771b6fbc3fd1e2a902c3b57e3d9e10bd4aebfbb8bd71baa6cdb426863f5af0b77c943fb5bd6d7b448249c6883da9ef10;
  0x1a1cefb5c3fcfde37b00cf0f63e3ded4b58a98d783ffad0f4c17844d23df8d38ff7a3034dbdd7eaaa6b44e2483fb63ef22b799447bddb4a638bf1eccf3e117e11;
  0x19d47393abfde11bfe55edba33e28bb02636cc5e83fe628f1e8eb324abe0c92ea4188251cbdd850257b929c01bfc99a94885d6beabe04757a09aff6033e11c849;
  0x14ba43654bf932762bcc7a7203dd2e72cdfb63dc83f90f02d39d750ac3dfa942aa318d8b13de6f0d68befcf1a3fb7d0ebc6fb28b0bdf0e80e773d2206be20c758;
  0x10e0559adbef5171c5b8179873d3254a7dc5158ff3ef06ce2ffe6df8b3dc6bc3ae36e4d633d9d39deef6170f93f845f41f9d88787bd99d8641e7eba80bdd5602e;
  0x197fdb30ebe05f618310529003c4279876578cafe3e008ded63f951683d2daf41b88632993d001723bb00c75d3eea995de4325a57bcf9100ff122fd6dbd378969;
  0x15f7ef516bcc5bf387e9c68cb3b02244d5141f7a13cc0418f1e4231463c401c2ac9aae3c73c10c142ae16a4023dfcdefa35933383bc09427a8e0990afbc488242;
  0x1edd27ce8bb347c76ae3b482739710daa990dc4023b2e8fc57b0a42893b001f1473a8b7a73ad0976526a779c43cbce43282e9d9c2bac8cdf367994d31bb084505;
  0x15d4c03c7b9525bfc07c106f3378e8c8afb2cc20b394b5fa6da7a8690396e748cb0741ac2393f424ee61f4b9c3b2b4a2703fd4b81b93750fc04e6b05ab976dcd2;
  0x1c1739d9db71f4e1b848000f1355a0a99a43dc98d371755a73d1930c6378b4fec2c5550c2375c03833777d4a4394879292d9ac6adb754e257ddf6b014b7947d2f;
  0x1da3f9d87b499640f45f71a6a32d51eee7f3549ea3492eceb32a00f0b35574a22f55db3c93527e2324f6dddae3714de69f206b549b521cd7979929b98b56177df;
  0x1be120b67b1c3977c3d45fcff30004bfb8a8f2ba431bd34aafc8b81c532d2e3f8a4fef76b32a35f159894cc493490ed4e4035dd7fb29ce0a8c2f65ab8b2dc5611;
  0x10139099dae9cc34abb5594a22cd7ecebd81c7aa92e9570473b0d73e52ffd27040e8514a02fcde4eb6869957531ba1f497de4a2ccafc6482b18d51c6bb005dd48;
  0x1c1523735ab2416076aa90d202960b53b3c3094212b1df1492b891d572cd566493a6732712ca5f1ab838dfe302e932cdb341f3ee0aca05b2abfe28a6aace00cb8;
  0x1928b2e2ca75ab032bc75faf425963324b7a3a3762753e46b8df5e63c295de3572dfd0229292ea6019857c2102b1ac8096de1c8a0a926d811a541deeca9666a81;
  0x137029fdb275ab032c0c41c58257db1edb7f80c762753e46b912b61012593db2848f439ce25645c7ba8c239422751cacc699bf586a55e5a4f8df7e27ea59dc8bc;
  0x100207f8e2b2416076de6889029465957a261d2d12b1df149305da247257a8f5ee814fed8a5648f2b83a185342751cacc6c7ab66fa55ea5df0a33e67c2583eb87;
  0x14d95021a2e9cc34abff9624b2cc0006e649dd7b72e9570473e82ca312943fd526081fe37a92ef24d3b6e10142b1ac8097233c278a92710ef8b988467294dfbfc;
  0x1c33ebcfd31c3977c406f0ea22fe5cc8ef6d1e64631bd34ab014199742cbc9fe7dca810ccaca6284bf70bb4692e932cdb37371d1daca083e26980336f2cc577ef;
  0x1121a514f3499640f4a0fa7ac32bc4075d6b851f93492eceb35ad9ce42fe37f5e0cfaf3f5afce2f55cb2d6c6531ba1f49821b63e0afc67fa28c9c94e62fed3f14;
  0x18c314e98371f4e1b898ccaf735416ab6c055a597371755a740dcd35232b944ba50d28a76b2a38f4e944c90ec3490ed4e42f0e38bb29d288bd3438a5332c2f39f;
  0x16e3dae2d39525bfc0ab7338737746e7c7dcd6aad394b5fa6dee4f590353f271e118a74c3b5281da66910f2933714de69f56483e7b521f9ca6f4e168d35475db3;
  0x1c697dd773b347c76b18949c63956cfa28f5952153b2e8fc57ff8585e3772444b28f6b8b3b75c493e5f5381b139487929318d6f72b75516545f6f6986377b681a;
  0x181cd10323cc5bf38821e7b213ae844585d9413403cc0418f20e182ce39545e706a5f75dab93f901f92a4db543b2b4a27086442a8b9378b06c740136e395e94e5;
  0x1bb6b38733e05f6183490156d3c28b65909c208903e008ded66a4f4ac3ae5907ebe68818dbad0c0b25f29b9043cbce4328792f64dbac90bb2666717a93af03b5a;
  0x1137eadc23ef5171c5ee86d873d1885067aa64a553ef06ce3028d2e5a3c258c997b59c398bc10eaf7e4ec0fd63dfcdefa3a3b787ebc09815b2fa4268d3c30644f;
  0x13b31b8c83f932762bfdea3733db9490381fc81e03f90f02d3c92cd483d13da7cbdfab706bd003f318117c8653eea995de87ccce0bcf94e73bbbd204b3d1f7bc1;
  0x1a12d69b43fde11bfea389d353e108a44142af8153fe628f1ec7e52a93dae694cb98dc641bd9d82a00d0203de3f845f41fd21d30dbd9a18ba7adb66283dbc97bd;
  0x19e9aea0fbfcfde37b530fa383e2403fa81bf85243ffad0f4c5cbaefe3de1c6b852d69b3ebde729f1b59d22b53fb7d0ebcad2adbfbdf112241fda93bf3e067192;
  0x1b449791ebfcf593554288f873dfab2fdcf452d2a3fd1e2a905a64fcebdf31c50aa6ba83d3dd88caa723715dfbfc99a948c7ec4adbe04a867bc05a928bdf7c943;
  0x159edaed5bf673cfb33acf16f3d8cd7b761ba85023f63523e436aac9b3de09aaff5b4370e3dd826339faaf7bf3fb63ef22f104138bddb8e52daeed00cbdf765fc;
  0x16d2165553f673cfb33acf16f3d8cd7b76ec836a73f63523e436aac9b3d841baf56a289583d71e6c8daa36a0e3f5af0b780ecc97cbd6dc4a7afe85f02bd91584c;
  0x19f825a6d3fcf593554288f873dfab2fdd7c28df73fd1e2a905a64fcf3d841baf590b2aa5bd71e6c8c74dc0193f5af0b780ecc97cbd6dc4a7f19fa74b3d91584c;
  0x1ba6f20a63fcfde37b530fa383e2403fa8bda0ecc3ffad0f4c5cbaeff3de09aaffc12d36abdd82633d1ab48a53fb63ef22f104138bddb8e52cdba6f633df765fc;
  0x1a3834b50bfde11bfea389d343e108a44164650393fe628f1ec7e52aabdf31c5096437d69bdd88caa485f68b4bfc99a948c7ec4adbe04a867a2f2c10d3df7c943;
  0x139273fb5bf932762bfdea3723db9490390e396653f90f02d3c92cd493de1c6b81fcb4afb3de729f1798968b53fb7d0ebcad2adc0bdf1122437706b97be067192;
  0x117e83381bef5171c5ee86d863d188506723cda773ef06ce3028d2e593dae694cba4602593d9d829fbdfb0a923f845f41fd21d30dbd9a18ba410d11c9bdbc97bd;
  0x1b88f42e9be05f6183490156e3c28b6591f4b7f0b3e008ded66a4f4ad3d13da7cbde531fe3d003f3185e660f73eea995de87cccdfbcf94e7359e5c17bbd1f7bc1;
  0x183382060bcc5bf38821e7b213ae844586b4580913cc0418f20e182cf3c258c996f3568b73c10eaf7d73717353dfcdefa3a3b787dbc09815b5f9e0878bc30644f;
  0x1da7afb9fbb347c76b18949c63956cfa28e3d11da3b2e8fc57ff8585f3ae5907eb22d41043ad0c0b2660c3e913cbce4328792f64dbac90bb2818a4510baf03b5a;
  0x17bf61414b9525bfc0ab7338737746e7c78cc2b1f394b5fa6dee4f58f39545e706ea7ec03393f901f5d9c8c1c3b2b4a27086442a7b9378b06aa21567bb95e94e5;
  0x19244e45fb71f4e1b898ccaf735416ab6b3a37ad5371755a740dcd3533772444b330226bc375c493ebabd1ca939487929318d6f72b75516546cc4f2a5b77b681a;
  0x1147aa173b499640f4a0fa7ac32bc4075ccebd34b3492eceb35ad9ce4353f271e229ff84c35281da66387632b3714de69f56483e7b521f9ca7bd2dc4eb5475db3;
  0x1c847b646b1c3977c406f0ea12fe5cc8f1184574631bd34ab0141997632b944ba621987d032a38f4e98a1108b3490ed4e42f0e38cb29d288bc2b9c661b2c2f39f;
  0x1501753e5ae9cc34abff9624c2cc0006e6742cd5d2e9570473e82ca312fe37f5e1dfe6ecf2fce2f55e86ad3a131ba1f49821b63dfafc67fa2b01607d9afed3f14;
  0x1fbaf42b3ab2416076de688902946595793edbf912b1df149305da2462cbc9fe7cb150bf12ca6284bf05ada4c2e932cdb37371d1daca083e257c84b9facc577ef;
  0x14b7cc2b9a75ab032c0c41c58257db1edb13073a12753e46b912b61002943fd525ab0604c292ef24d31f15d062b1ac8097233c278a92710efb223611ba94dfbfb;
  0x148fd6025275ab032c0c41c59a57db1eda873ab0c2753e46b912b6101257a8f5ed7ba3b3825648f2b825bd2e42751cacc6c7ab670a55ea5df06f2d2e8a583eb87;
  0x10312b3a62b2416076de68890a946595788a62ee52b1df149305da248a57a8f5ed7eb0129a5648f2b83a185392751cacc6c7ab66fa55ea5dee0a87a88a583eb87;
  0x1526afde72e9cc34abff9624aacc0006e6967ebf32e9570473e82ca31a943fd525c4ace97a92ef24d2ea1434e2b1ac8097233c278a92710efb3adde51a94dfbfc;
  0x1cff4763631c3977c406f0ea2afe5cc8f08e0273e31bd34ab01419975acbc9fe7d357ef35aca6284bf70bb46e2e932cdb37371d1daca083e2598f928facc577ef;
  0x11118e1e53499640f4a0fa7acb2bc4075cb4a55803492eceb35ad9ce4afe37f5e1fd1d8d9afce2f55fe609fa031ba1f49821b63e1afc67fa2b67763a0afed3f14;
  0x19701e49b371f4e1b898ccaf7b5416ab6ad2a604c371755a740dcd352b2b944ba58c70f24b2a38f4ea77fc4243490ed4e42f0e38cb29d288bd89ff39db2c2f39f;
  0x17828b83a39525bfc0ab73387b7746e7c8636b810394b5fa6dee4f58fb53f271e180f24d8b5281da65c4425cc3714de69f56483e7b521f9ca7df8d0efb5475db3;
  0x1dc9b55bd3b347c76b18949c6b956cfa28c43441f3b2e8fc57ff8585eb772444b30a2e0e7b75c493ec5b9e81e39487929318d6f73b755165454cfc62db77b681a;
  0x17affbc9b3cc5bf38821e7b21bae844586fc246a03cc0418f20e182ceb9545e70726d56f3b93f901f05d80e8f3b2b4a27086442a7b9378b06a636f954b95e94e5;
  0x1c62e61273e05f6183490156dbc28b65921c6b0c33e008ded66a4f4acbae5907eb7fde4dabad0c0b24bf685d53cbce4328792f64dbac90bb289f80757baf03b5a;
  0x112e7b8a53ef5171c5ee86d87bd1885066c94a6b13ef06ce3028d2e5abc258c9971730936bc10eaf7de85a9743dfcdefa3a3b787dbc09815b3910bf70bc30644f;
  0x14667e0d23f932762bfdea373bdb949038850a32f3f90f02d3c92cd48bd13da7cbb9ee294bd003f31744afb9c3eea995de87ccce0bcf94e7359afa30abd1f7bc1;
  0x19d38fcb33fde11bfea389d35be108a441d7b73333fe628f1ec7e52aabdae694cb33f068ebd9d829fe69b9d7e3f845f41fd21d30dbd9a18ba6ba91e56bdbc97bd;
  0x19e31e2bdbfcfde37b530fa39be2403fa94e785313ffad0f4c5cbaefebde1c6b8538fcb2cbde729f19c0389223fb7d0ebcad2adbfbdf112242eebb1d6be067192;
  0x1a30353afbfcf593554288f85bdfab2fdd1abd9a53fd1e2a905a64fcf3df31c5098c78af63dd88cab3f03e2a2bfc99a948c7ec4afbe04a86793186f623df7c943;
  0x16999845ebf673cfb33acf16fbd8cd7b77111d74e3f63523e436aac9abde09aafede5628c3dd826338877c48b3fb63ef22f104138bddb8e52ac1c37883df765fc;
  0x167ab67783f673cfb33acf16fbd8cd7b76725ec933f63523e436aac9bbd841baf5bb3dd0e3d71e6c8ced69d413f5af0b780ecc97bbd6dc4a7e4a9552e3d91584c;
  0x1a87da5933fcf593554288f86bdfab2fdd61423153fd1e2a905a64fcfbd841baf4d5b3bc2bd71e6c8b41a8cea3f5af0b780ecc97bbd6dc4a7d6c55a97bd91584c;
  0x18bf745c13fcfde37b530fa38be2403fa7fe706493ffad0f4c5cbaeffbde09aafe3ed2c98bdd82633d1ab48ab3fb63ef22f104137bddb8e52bd4c4788bdf765fc;
  0x1a549817cbfde11bfea389d35be108a441ccb37083fe628f1ec7e52aa3df31c507022e8fbbdd88cab2ec5cf2abfc99a948c7ec4aebe04a867c7a04e9cbdf7c943;
  0x146458d18bf932762bfdea373bdb949037ce0a9843f90f02d3c92cd48bde1c6b83367e8383de729f18e5635813fb7d0ebcad2adbfbdf112243049d4443e067192;
  0x114566619bef5171c5ee86d87bd1885067c6ce13a3ef06ce3028d2e59bdae694cc75397403d9d829fbc47d75f3f845f41fd21d30cbd9a18ba65d866e13dbc97bd;
  0x1c6e646b0be05f6183490156ebc28b65917410efa3e008ded66a4f4acbd13da7cbf8a679c3d003f31763b2dc43eea995de87ccce0bcf94e73a9a7b5ff3d1f7bc1;
  0x17e24a5d4bcc5bf38821e7b21bae844586691d2043cc0418f20e182cebc258c9987800a7d3c10eaf7d5c5f0cf3dfcdefa3a3b787dbc09815b4694c32f3c30644f;
  0x1c7f64f41bb347c76b18949c6b956cfa290f54da53b2e8fc57ff8585fbae5907ebe7971633ad0c0b23f03a5c43cbce4328792f64dbac90bb2713dc9463af03b5a;
  0x176a0c0a7b9525bfc0ab73387b7746e7c83e48fe7394b5fa6dee4f58fb9545e706eb4043d393f901f641ffe1c3b2b4a27086442a6b9378b06b2aa5523395e94e5;
  0x190b7b123b71f4e1b898ccaf7b5416ab6beb6ae75371755a740dcd352b772444b2d3bfa61375c493e96f9fea639487929318d6f73b75516546e9c3ab1377b681a;
  0x10eb5a919b499640f4a0fa7acb2bc4075d2617c333492eceb35ad9ce3b53f271e167d39f635281da65628f1e13714de69f56483e7b521f9ca6cc39fbd35475db3;
  0x1baeb3177b1c3977c406f0ea2afe5cc8eed02af2b31bd34ab01419976b2b944ba51b0911032a38f4eabcc82043490ed4e42f0e38cb29d288bc0dd6fb132c2f39f;
  0x14fe8a879ae9cc34abff9624bacc0006e6a3ef57e2e9570473e82ca31afe37f5e1640087f2fce2f55db9d3da331ba1f49821b63e0afc67fa2817e0bae2fed3f14;
  0x10783f02bab2416076de68890a9465957a5a7d1062b1df149305da248acbc9fe7da22d0682ca6284bf05ad09e2e932cdb37371d1daca083e2512252912cc577ef;
  0x134833d43a75ab032c0c41c59a57db1eda9fa2e102753e46b912b6100a943fd525a49419d292ef24d25248f5c2b1ac8097233c278a92710ef8bb23801294dfbfc;
  0x1921849ac275ab032bc75faf4a5963324b7c769322753e46b8df5e63ca57a8f5eea5eaf7525648f2b825bd2df2751cacc6c7ab66fa55ea5dee4b9d76a2583eb87;
  0x1c19179b62b2416076aa90d20a960b53b3b6db6ab2b1df1492b891d56a593db28486126b2a5645c7b96d4b87e2751cacc699bf585a55e5a4f9d1869e9a59dc8bc;
  0x1fe9abf7a2e9cc34abb5594a0acd7ecebd808965f2e9570473b0d73e6a95de3572c8bcdb3a92ea60161d4769c2b1ac8096de1c8a0a926d8119684fdcda9666a81;
  0x1bffd1d8e31c3977c3d45fd00b0004bfb8ccb554531bd34aafc8b81c6acd566493cd5fbceaca5f1ab770bb4812e932cdb341f3ee1aca05b2acb52ea10ace00cb7;
  0x1daf2d7593499640f45f71a6bb2d51eee8076cb0a3492eceb32a00f0caffd27040fe8ec6eafcde4ebbe609fba31ba1f497de4a2ccafc6482b27453346b005dd48;
  0x1bf5a12c0371f4e1b848000f1b55a0a99a7d65506371755a73d1930c5b2d2e3f8a3cb5d64b2a35f15944c91023490ed4e4035dd7fb29ce0a8aa223020b2dc5611;
  0x15ba3c7a839525bfc07c106f3b78e8c8af5ae11ad394b5fa6da7a8690b5574a22f2d09604b527e23242aa8c473714de69f206b54ab521cd7984a995abb56177df;
  0x1ebf3a23c3b347c76ae3b4826b9710daa9700ec5f3b2e8fc57b0a428cb78b4fec2d1e3d42b75c03832c204e9d394879292d9ac6adb754e257e288e45bb7947d2f;
  0x1617fde4e3cc5bf387e9c68cbbb02244d4ed6f4ba3cc0418f1e423146b96e748caf9d11e2b93f424ef90b41de3b2b4a2703fd4b80b93750fbfae2c7bab976dcd2;
  0x19a4a63c73e05f61831052900bc427987656d83893e008ded63f95168bb001f1475ff7937bad097654bf685e43cbce43282e9d9c2bac8cdf393917d84bb084505;
  0x10f2054903ef5171c5b817987bd3254a7dc6b1f773ef06ce2ffe6df8cbc401c2ac9298f1bbc10c142a4ec0fe93dfcdefa35933384bc09427a6e39b887bc488242;
  0x14c66c5013f932762bcc7a721bdd2e72cdf3e21873f90f02d39d750acbd2daf41b902a47fbd001723a117c8773eea995de4325a57bcf9101007448b8ebd378969;
  0x19a1b0bfa3fde11bfe55edba3be28bb0262c2353f3fe628f1e8eb324abdc6bc3aeb36280bbd9d39df19ced0cb3f845f41f9d88787bd99d86458137b88bdd5602e;
  0x199261249bfcfde37b00cf0f6be3ded4b597d1ba63ffad0f4c17844d2bdfa942aa3617f34bde6f0d68f36bc6c3fb7d0ebc6fb28b1bdf0e80e6f039aa7be20c758;
  0x170ada1b8bfcf59354f19fb14be13f5c97a0efd693fd1e2a902c3b57d3e0c92ea493092463dd85025a56a48e3bfc99a94885d6becbe04757a1df4f5043e11c849;
  0x1e81ec22fbf673cfb2fed49c0bda590028921c9ef3f63523e404cc66dbdf8d38ff725e4793dd7eaaa7baaf7be3fb63ef22b799449bddb4a637ef1d7863e117e11;
  0x1e708e6f03f673cfb2fed49c0bda59002873941163f63523e404cc66cbd9e10bd47b1ee873d71baa6b5d69d413f5af0b77c943fb5bd6d7b445dd780fd3da9ef10;
  0x171529c983fcf59354f19fb15be13f5c97b40b0243fd1e2a902c3b57ebd9e10bd4847377cbd71baa6ba80f3603f5af0b77c943fb5bd6d7b44a61844bcbda9ef10;
  0x19fca9e3d3fcfde37b00cf0f6be3ded4b60f7fd003ffad0f4c17844d1bdf8d38ff529c982bdd7eaaa5e78158e3fb63ef22b799449bddb4a637a7340debe117e11;
  0x19a459392bfde11bfe55edba4be28bb025fe8674a3fe628f1e8eb324a3e0c92ea51ab0e14bdd8502561f90298bfc99a94885d6be9be04757a17b82dddbe11c849;
  0x14a82fce0bf932762bcc7a721bdd2e72cdb35e7033f90f02d39d750acbdfa942aa74d8db63de6f0d68723024c3fb7d0ebc6fb28b2bdf0e80e6d0368663e20c758;
  0x10f1f2653bef5171c5b817988bd3254a7e027300e3ef06ce2ffe6df8bbdc6bc3ae9a819033d9d39df312e3dc53f845f41f9d88788bd99d864004042f93dd5602e;
  0x199f62b58be05f618310528ffbc427987654d1d623e008ded63f95167bd2daf41b2abcd673d001723966cc75d3eea995de4325a57bcf9100ff57cb34a3d378969;
  0x16444aa37bcc5bf387e9c68cbbb02244d4d34cfee3cc0418f1e423146bc401c2acce9729f3c10c142b880b0cf3dfcdefa35933385bc09427a40c8d4a93c488242;
  0x1f0f7320abb347c76ae3b4826b9710daa9658540a3b2e8fc57b0a428abb001f14775822253ad097652565775e3cbce43282e9d9c2bac8cdf381e1987f3b084505;
  0x15bdaa846b9525bfc07c106f3b78e8c8afc2b11b2394b5fa6da7a8690b96e748cad2c9592393f424f2e8696033b2b4a2703fd4b80b93750fbe91d06af3976dcd2;
  0x1bd96c0fbb71f4e1b848000f1b55a0a99a2aa4f8d371755a73d1930c5b78b4fec2b76ff2c375c038319145546394879292d9ac6adb754e257efc9c40537947d2f;
  0x1d9bc0913b499640f45f71a6bb2d51eee83c61d643492eceb32a00f0cb5574a22f84ca5063527e2325a8724183714de69f206b54ab521cd7989134c24356177df;
  0x1baba88fdb1c3977c3d45fcffb0004bfb87bf0c0731bd34aafc8b81c4b2d2e3f8a287f8d932a35f15987d9a3a3490ed4e4035dd7fb29ce0a8a2c548b032dc5611;
  0x1fdfa26dfae9cc34abb5594a1acd7ecebd86dd8a62e9570473b0d73e5affd27040953f9172fcde4eb9b9a6f0131ba1f497de4a2cbafc6482b1c1768e33005dd48;
  0x1c6adc88bab2416076aa90d20a960b53b40d2e0a62b1df1492b891d57acd566493c4acaef2ca5f1ab705aae0c2e932cdb341f3ee0aca05b2acd6ef3632ce00cb7;
  0x18fdb3834a75ab032bc75faf4a5963324b80af76a2753e46b8df5e63ca95de35726b28174292ea6019857bf7d2b1ac8096de1c89fa926d8119abc11ae29666a81;
  0x1af0c24d6275ab032b3e45563a5a2618958a433d02753e46b8792d9fda593db284a4a7e1825645c7b958f06002751cacc699bf585a55e5a4f9fe90156259dc8bc;
  0x15bfbf00f2b24160764361345a96baaef69809a7b2b1df14921ebfc02a5a070c26230935aa563f79836d4b89d2751cacc63e5872ba55dc3ea82785955a5a8a923;
  0x175cdf2ad2e9cc34ab21969baace3cf51fe93601e2e957047342b4e08a968bf2abbdf8075a92e0e257b6e10642b1ac80965487ba3a92666e1174e7beea9728f60;
  0x151fe8ec731c3977c36fba46cb00afca5aa52a69631bd34aaf32aefeaace1b7eb1d37cab5aca584f0a3d8816f2e932cdb2df722b1aca00a2011491ec3acea93e2;
  0x1f6ac9ee03499640f3dd01905b2e17cd6a048fdc93492eceb2c8c7a36b008233ccbf47638afcd50cb7e609fe631ba1f4975818438afc5d9c3223dec1cb0121a72;
  0x18fc07927371f4e1b7a72e029b5658fd1fb04ac28371755a7359b336fb2df48300d64f6ffb2a2ff19a1195deb3490ed4e3ac68cc7b29c51926b4435fbb2e7763b;
  0x14b384a3b39525bfc01dbfb03b7994b436c60ba5b394b5fa6d1b08b90b56348899f01e49db5276bdb1c4426043714de69eb5364c5b5217543a5b9a751b56ced41;
  0x163f9d11e3b347c76a7a76aacb97c3d6159c816213b2e8fc5713a3e77b7969d2e65c251d5b75b78b45f5381fa3948792925bf30d5b7547adcd2f04a01b7a0f6ea;
  0x1eb26558d3cc5bf3877a0ea3ebb0e0aca5b2e66b63cc0418f190a054cb9793765b7ce88f2b93ea76c390b420c3b2b4a26fb3a37a4b936dd74032f2fecb982ee07;
  0x15f8b984a3e05f61829f80c17bc4e97ec563836313e008ded5ea8a054bb0ab24a4532ac6cbad0452f85901f963cbce43279a31e32bac8530bec8b92d4bb141843;
  0x154c35d7b3ef5171c54bbf4cdbd3e5adcc2875e8b3ef06ce2faa0ca3ebc4aad77805cc250bc106e3d9e85a99b3dfcdefa2c4e2501bc08c5518c012a5cbc544af8;
  0x10e002f4e3f932762b6a14c98bddf4d7e547244973f90f02d346713f8bd38940ade1aebdabcff8ed35bc92ab73eea995ddba80968bcf893e0f31c81dcbd437ced;
  0x1cae7d8c73fde11bfdbb74df0be3479f51dce163f3fe628f1e1cdc1b8bdd2d30ab8017a6dbd9ca90f0035375e3f845f41f34e0aa0bd99585484ea4700bde1b2dd;
  0x1eebfabe2bfcfde37a5d18b08be48c76897c7d9093ffad0f4b8dc1ab6be0601b91e7d8c6bbde67f2b8269efc53fb7d0ebbf55975bbdf09449638e16b5be2bc8ee;
  0x1754da1b8bfcf5935450949e0be2086cee47eff1f3fd1e2a8fd059dd23e17a89ce2feaf873dd7d7ab8bd0af0abfc99a948024e933be04101ac65817493e1d726a;
  0x1c420fab1bf673cfb28773857bdb1da7707e3193f3f63523e3a18a936be048e496f12f23d3dd7742921aaf7bc3fb63ef224551356bddac32a08e735bb3e1cf783;
  0x1c58473783f673cfb28773857bdb1da77089093cb3f63523e3a18a937bda8e4c199ac2a773d7162ce013d03a73f5af0b773ede306bd6ce9304ca686ee3db57905;
  0x173b902ff3fcf5935450949dfbe2086cee5bf01223fd1e2a8fd059dd3bda8e4c1a0239bc0bd7162cdfa80f37b3f5af0b773ede306bd6ce9300fc1df91bdb57905;
  0x1e96437d83fcfde37a5d18b07be48c7689735eeb13ffad0f4b8dc1ab6be048e4975c817f6bdd77428f811af4d3fb63ef224551356bddac32a5d0157acbe1cf783;
  0x1cc38c6c5bfde11bfdbb74df0be3479f51e6b10ba3fe628f1e1cdc1b83e17a89cea6f20a1bdd7d7abc85f6962bfc99a948024e931be04101aaa222ff5be1d726a;
  0x10d704b3dbf932762b6a14c98bddf4d7e523154313f90f02d346713f7be0601b9227393a83de67f2b4fefcf143fb7d0ebbf55975abdf094495bf749453e2bc8ee;
  0x15687ecc3bef5171c54bbf4cdbd3e5adcc2ee72bd3ef06ce2faa0ca3ebdd2d30ab365a61b3d9ca90f4a14a42b3f845f41f34e0a9fbd995854604f7a333de1b2dd;
  0x160749f46be05f61829f80c16bc4e97ec567961f33e008ded5ea8a054bd38940adb0419e73cff8ed3418e5b873eea995ddba80967bcf893e0e9cb7a943d437ced;
  0x1ed176b35bcc5bf3877a0ea3dbb0e0aca5aa59a523cc0418f190a054bbc4aad77798145d23c106e3da83bd7353dfcdefa2c4e2501bc08c55177f605623c544af8;
  0x16107ef75bb347c76a7a76aacb97c3d615ecae7a23b2e8fc5713a3e76bb0ab24a43a58d593ad0452faf9bb9c43cbce43279a31e32bac8530bd11f5f4d3b141843;
  0x14a6abd1cb9525bfc01dbfb02b7994b436a44406a394b5fa6d1b08b90b9793765b6105789393ea76c4f8dca033b2b4a26fb3a37a5b936dd74033dd7d73982ee07;
  0x191a9bd3eb71f4e1b7a72e02ab5658fd1f72fc8a2371755a7359b336fb7969d2e6811b17e375b78b4ce326a243948792925bf30d5b7547adcd1bc14b637a0f6ea;
  0x1f60cc66fb499640f3dd01905b2e17cd6a27101753492eceb2c8c7a36b5634889a02eaa9b35276bdb10a6fc533714de69eb5364c5b5217543bcd9aa9f356ced41;
  0x1515d0adfb1c3977c36fba46bb00afca5a35e85da31bd34aaf32aefeab2df48300756fd4132a2ff19a51b03e03490ed4e3ac68cc7b29c51926e99839732e7763b;
  0x1752d5484ae9cc34ab21969bbace3cf51fdfd8dae2e957047342b4e08b008233cc8397e612fcd50cb9b95a1db31ba1f4975818438afc5d9c31811d1a730121a72;
  0x15c8a1738ab24160764361345a96baaef6adef4f22b1df14921ebfc02ace1b7eb1e29878b2ca584f09d273fb82e932cdb2df722b0aca00a200b0b00842cea93e2;
  0x1aded9c15a75ab032b3e45563a5a2618959329a742753e46b8792d9fca968bf2abad0774d292e0e2571f153d52b1ac80965487ba3a92666e11b3cea3829728f60;
  0x146ec78d2275ab032a7244be7a5a97c2f36ec29732753e46b7e11fb58a5a070c2624f77d22563f798358f05e22751cacc63e5872ba55dc3ea7900e67625a8a923;
  0x1b4c8bcdc2b2416075a9d815aa9732e3698d9e4442b1df149139df1fea5a6cb684363c68ea563617b2a07ebfa2751cacc5b6580e2a55ce42388777c89a5b1188e;
  0x140e6f9572e9cc34aa45ba643aceb775726b742eb2e95704729ed5109a97127d38122f36ea92d2c30e1d4770a2b1ac809587d0ea2a925be76441b11faa979bbbd;
  0x16f98286131c3977c2d9f8715b012b5638a4d6e5431bd34aae537024eace89102b137cab6aca4e32823d8819d2e932cdb24cdf654ac9f2314103a798cacf26cc3;
  0x18aefe90a3499640f31aebcd7b2e83f18b4ba751c3492eceb2381d98eb010bbba9660a183afcc74674b2d6cf231ba1f496906b5b3afc5357de5402d0db019199e;
  0x12e79d62d371f4e1b6b7e3076b56de52e7f93ac93371755a72a7553f5b2e5afa3ef7f484db2a270496de62ae13490ed4e32b05792b29b7cacdf637d28b2f043cb;
  0x1c76b7d6e39525bfbf9169824b7a188f28c473fc7394b5fa6c49cafb4b56abc7727ceb16bb526bbc66910f3033714de69e15b1752b520f2040baf013cb5740da9;
  0x1d0c69deb3b347c769ddde8c4b98393bc58e6ec953b2e8fc562a07d4eb79f5aa5f35beb70b75aaa2c38ed1bce394879291a0e0d4fb753e0e514d881a7b7a78569;
  0x15e5988c13cc5bf386d3d3668bb14d39b308e87913cc0418f1145dd18b9817b2ce91a77adb93dc0f79f71a8b43b2b4a26ee30a136b936318dd8c1fb20b98a3ef9;
  0x1a92531e43e05f6181f7a210ebc55357225630cfe3e008ded56bffc1cbb1281d757662304bacf95bba4b9d90c3cbce4326bd5a255bac79c2d0127ecd3bb1bdc7a;
  0x15c5cf7153ef5171c4aa89131bd450b1d9d192ab33ef06ce2f2c7eef7bc527e7f5694c78fbc0fe56e09d8204a3dfcdefa1e83278abc080b1711eaa859bc5c22c7;
  0x17899c8e73f932762ad7abd4cbde5b3518f50c7683f90f02d2c4f7fa2bd4109ee3173dc55bcfea192a895f7c73eea995dcef2e842bcf7db1a84e6cb3bbd4b051a;
  0x14b40b9303fde11bfcd59c18abe3c63ed65098d303fe628f1d7378b8fbdda198efcce473cbd9bd1970d0204683f845f41e9927caabd9899c99c380989bde88a00;
  0x182930924bfcfde379698025abe512d8a2c2cf35b3ffad0f4ac0c6addbe0e831b5817260bbde5d609a8d056613fb7d0ebb3f4d3f1bdf017a4c0b30b79be334302;
  0x1909d3743bfcf5935360f4c86be26e9fa573b03d93fd1e2a8f47a31323e2066b8404c248f3dd7246be56a484bbfc99a9473e98107be037945846dfe7c3e2469f9;
  0x1a4acfab1bf673cfb1d5d224fbdb8c0e8b24a58643f63523e30dda058be0c801d2d2c8bd63dd6c3d602de2aed3fb63ef219b45a67bdd9f9f71de79a9b3e2414c5;
  0x1a65140453f673cfb1d5d2250bdb8c0e8b40c74fd3f63523e30dda058bdb141e28ae2153b3d70e018f1bd03a73f5af0b7670f06c5bd6c0fd6295674b83dbdc592;
  0x1910fb4b33fcf5935360f4c86be26e9fa544061803fd1e2a8f47a3132bdb141e28b450114bd70e018edb426d33f5af0b7670f06c5bd6c0fd644bf4e90bdbdc592;
  0x17f1882533fcfde379698025abe512d8a2b8a04e23ffad0f4ac0c6addbe0c801d30fb4b2cbdd6c3d5d1ab491b3fb63ef219b45a66bdd9f9f752740a56be2414c5;
  0x148d5fcfcbfde11bfcd59c189be3c63ed64d6a2bc3fe628f1d7378b8f3e2066b8439df6b5bdd7246bfb929d21bfc99a9473e98107be037945836350ccbe2469f9;
  0x176dcb1a3bf932762ad7abd4bbde5b3518f18cb0d3f90f02d2c4f7fa1be0e831b5d4060763de5d609a8bc9bdc3fb7d0ebb3f4d3f1bdf017a4bbc809633e334302;
  0x15c41a65dbef5171c4aa89131bd450b1da07fbe6f3ef06ce2f2c7eef8bdda198efd0a72e83d9bd19728c7d75e3f845f41e9927caabd9899c9783ce3e43de88a00;
  0x1aaf4b9acbe05f6181f7a210ebc5535722615596e3e008ded56bffc1dbd4109ee307f668d3cfea192bbb328543eea995dcef2e841bcf7db1a7d2d3bee3d4b051a;
  0x16081c7e8bcc5bf386d3d3667bb14d39b308dc70e3cc0418f1145dd18bc527e7f56e5a1503c0fe56e1b24619e3dfcdefa1e83278abc080b172003f9b63c5c22c7;
  0x1d050ebc6bb347c769ddde8c3b98393bc5aa144333b2e8fc562a07d4ebb1281d75506d5e03acf95bb92bf25223cbce4326bd5a255bac79c2cab7edfb33b1bdc7a;
  0x1c686b2e9b9525bfbf9169825b7a188f28c091148394b5fa6c49cafb4b9817b2cea2cec16393dc0f7aaf8264f3b2b4a26ee30a137b936318de8348aa1398a3ef9;
  0x12f33d75bb71f4e1b6b7e3076b56de52e7b691f04371755a72a7553f5b79f5aa5ec7ea35c375aaa2c5086e619394879291a0e0d50b753e0e50fa580f937a78569;
  0x18a9cdd75b499640f31aebcd7b2e83f18b5b80ab23492eceb2381d98eb56abc77285e0e6d3526bbc698910c323714de69e15b1753b520f203ff3d6eaf35740da9;
  0x16ef65378b1c3977c2d9f8715b012b56389612e1e31bd34aae537024eb2e5afa3eff24c7132a2704971a533cc3490ed4e32b05792b29b7cad09da334932f043cb;
  0x14096a65bae9cc34aa45ba644aceb7757275937652e95704729ed5108b010bbba941dc2912fcc7467685baed631ba1f496906b5b2afc5357ddc3ac05f3019199e;
  0x1b556e3aaab2416075a9d815aa9732e369bdbfcbc2b1df149139df1feace89102b15325f02ca4e3281d26ec9b2e932cdb24cdf654ac9f2313c86426e82cf26cc3;
  0x1445d346da75ab032a7244be7a5a97c2f38307da32753e46b7e11fb57a97127d3845486aa292d2c30d857b2d82b1ac809587d0ea1a925be764ef270852979bbbd;
  0x1a51fac05275ab03296554db9a5b02c001d4683a62753e46b718ab859a5a6cb68436932f32563617b28c238ea2751cacc5b6580e1a55ce423a37e800125b1188e;
  0x1c1cac4d42b2416074df6ffd9a97857abc1f00e002b1df14900c243c7a5aceddb64fd6029a5629b9603a185cb2751cacc5030d77ba55bbd226b34a44ca5b5b264;
  0x1784d5fbd2e9cc34a923e2b00acf16dd28b4c263c2e9570471c6cbd35a975c5c5f85626a3a92c0250483addc32b1ac809479f0ceba924e07005f3e1eea9805454;
  0x1b931c1fb31c3977c2148b86ab017be546a6759dd31bd34aad2d21f40acef2d89326afdebaca40de1170bb50b2e932cdb18ba4fa1ac9de5244da5f050acf76228;
  0x19d8982a33499640f21b0ede4b2eec593b1bffec33492eceb1796779bb0153c959ac707ebafcb51da57fa3a0f31ba1f495892fbc6afc45ced7213cdfbb01fdae8;
  0x1e846a2fa371f4e1b57c6d12bb572f86b533328cc371755a71bc30e58b2eb85b8be4c151cb2a1b4031ab2f7e23490ed4e28072dcfb29a6402352ef5f9b2f4a45f;
  0x1f16b7d6e39525bfbed867e2cb7a641083c534a2b394b5fa6b35f30deb570f73d141a8be9b525d3a4cf7759aa3714de69d4366171b52044fc89cb36f8b5797340;
  0x191301bc33b347c7690f6e38fb988d883f74c790d3b2e8fc54f60fe33b7a3e56833adf5b9b75999e778ed1c19394879290aa42f78b75315eb15d95f8bb7add9eb;
  0x120c65dfa3cc5bf385f8aea90bb1a6e788d7993443cc0418f0708de4fb9862f8dc380de15b93c91276c3e75d53b2b4a26dd00acbfb9354eeff68db016b990a79b;
  0x1869298f23e05f61811a545d2bc5aeaa43d2b39453e008ded4c52e45abb177ce8c232efd2bace53393e5372fe3cbce43259a36dafbac6ab1894be3c02bb21ae00;
  0x1e7fb48583ef5171c3d6025fabd4ab4eb585ba5d63ef06ce2e86fa665bc5778aa6494c790bc0e9fbe09d820a43dfcdefa0c543c83bc0715964d43ae8ebc61da9c;
  0x11b002f4e3f932762a16a88a0bdeb8a63c25069e53f90f02d21a486fabd459fd4efda42bcbcfd68ccf562c4eb3eea995dbe324b3abcf6e7838a710e60bd512554;
  0x12ca71f973fde11bfba69a121be4203f396340f063fe628f1c942a9a1bde08fdd3400bd39bd9ab589803537ea3f845f41dcbddc5fbd979e9746dae989bdef24a4;
  0x1402ca2bdbfcfde378285dff7be55cd06418b02963ffad0f49b28cb14be135ca1fa71f970bde4f7129c0389d93fb7d0eba4f4ebadbdeee6a6de9cd421be387210;
  0x13bf6d0dcbfcf59352250ef6fbe2d14a7a81d8d543fd1e2a8e93680883e24d0b278b28af43dd6381ef23714a6bfc99a9463c95ba6be02b26d4999ee263e29e869;
  0x18dac96f2bf673cfb0eba669ebdbf6a53336bbc353f63523e24b26db3be1215d679c9791e3dd5db627daaf7b73fb63ef20bb19d35bdd8f0b94b730f843e297c47;
  0x18e5bd3563f673cfb0eba669ebdbf6a53350e00a43f63523e24b26db2bdb5e6d85413486f3d7033c8ee29d0743f5af0b75617662bbd6af14cc42970ca3dc2e45c;
  0x13bdc81803fcf59352250ef70be2d14a7a8771f143fd1e2a8e9368088bdb5e6d854de9aafbd7033c9074dc09d3f5af0b75617662bbd6af14cda359cd0bdc2e45c;
  0x13e4bb5873fcfde378285dff6be55cd06409f04cb3ffad0f49b28cb14be1215d67ae40bfebdd5db627811afc43fb63ef20bb19d34bdd8f0b941ae817abe297c47;
  0x12a5c6363bfde11bfba69a121be4203f3969b15913fe628f1c942a9a03e24d0b27ad129e6bdd6381f152c376ebfc99a9463c95ba5be02b26d4a78a445be29e869;
  0x11abc4b3dbf932762a16a889fbdeb8a63c5d42abd3f90f02d21a486fabe135ca1f339c9d53de4f712c7efcf083fb7d0eba4f4ebadbdeee6a6df861b333e387210;
  0x1e6cbbcc8bef5171c3d6025fabd4ab4eb58818d9d3ef06ce2e86fa665bde08fdd334ad30e3d9ab5893b14a42a3f845f41dcbddc5fbd979e979a9a329a3def24a4;
  0x187105c09be05f61811a545d2bc5aeaa43ec39d5a3e008ded4c52e45bbd459fd4f0c1d9c03cfd68ccd82cc1ed3eea995dbe324b3abcf6e78393527fd83d512554;
  0x121339c6ebcc5bf385f8aea90bb1a6e788d20e9aa3cc0418f0708de50bc5778aa63d4f7b63c0e9fbdc97994d13dfcdefa0c543c82bc071596195f381e3c61da9c;
  0x19080f81cbb347c7690f6e38fb988d883f6d7d2883b2e8fc54f60fe34bb177ce8c582ac933ace533965dde6bc3cbce43259a36dafbac6ab184d0c6cb63b21ae00;
  0x1f14b4b6cb9525bfbed867e2bb7a641083c91e07d394b5fa6b35f30dfb9862f8dc4db64db393c91274f0ddb363b2b4a26dd00acc0b9354ef0221b116b3990a79b;
  0x1eab5a80ab71f4e1b57c6d12bb572f86b52a307f7371755a71bc30e58b7a3e568368ee156375999e720e8f157394879290aa42f78b75315eb1b0cc56637add9eb;
  0x19d3278afb499640f21b0ede4b2eec593b4e647453492eceb1796779bb570f73d12a41ca03525d3a4d8b7c5b33714de69d4366171b52044fc8872231235797340;
  0x1b88f8578b1c3977c2148b869b017be54677a931931bd34aad2d21f40b2eb85b8be4ddc9b32a1b402fe1cce383490ed4e28072dcfb29a64024db4bf9432f4a45f;
  0x175fd07c2ae9cc34a923e2b01acf16dd28af440fd2e9570471c6cbd35b0153c95976e33222fcb51dab51fd9c831ba1f495892fbc5afc45ced89032aab301fdae8;
  0x1c211d800ab2416074df6ffd9a97857abc4cb7fef2b1df14900c243c7acef2d8934b521792ca40de11059b5802e932cdb18ba4fa0ac9de5243effb3512cf76228;
  0x1a490679ba75ab03296554db9a5b02c001d44e7312753e46b718ab858a975c5c5f8f389a2292c02503ebe0fcb2b1ac809479f0ceaa924e0700d92b4b529805454;
  0x120b9459f275ab03281a0cb89a5b37209ca1b1fbf2753e46b621bf43fa5aceddb65f4c72925629b96225bd24e2751cacc5030d77ba55bbd22959a905625b5b264;
  0x164cac4d52b2416073e61bf06a97d451d3e6da7642b1df148e9876f9aa5b1647e01e5167ca561a7d0b06e52da2751cacc42632b6aa55a51be394ea8c8a5ba16bd;
  0x14ae6f9572e9cc34a7beda145acf4f501401684462e9570470bcadc76a97a2e0abe5626a4a92a9361083ade272b1ac80932d80c2ca923cef0d06b5526a983a288;
  0x1d965adca31c3977c1215a431b01c8cbb9f5444aa31bd34aabc29a01eacf2be98f09be55daca3072803d8821f2e932cdb09d9f4ceac9c5d7f6f6047b0acfc1de7;
  0x17b231c3d3499640f0dfe191cb2f2801893743d3f3492eceb08e7b74bb0198915212d6e53afc9ebf324c7073d31ba1f49444ee61aafc35229507cb4acb02326d4;
  0x1d779d62e371f4e1b3f7d5e2ab576cf7a52c29694371755a709a89e29b2f08bf9718c70f5b2a0cc16c77fc4ee3490ed4e1ae55804b2990a46233945f1b2f8d20f;
  0x1cc028b8439525bfbdf482efbb7aac24060759a45394b5fa69e22902ab574666ab1e758b7b524b5b42910f3913714de69c405aa8db51edfb2ab7e0fc9b57e9a19;
  0x1a6634ef63b347c7681122a62b98de00a3ef411a43b2e8fc537ab357eb7a7ec7012145c21b7584a8405b9e94139487928f7a79782b7521be2d8b561e7b7b1f26a;
  0x197c65dfa3cc5bf384eabcb34bb1fc82bba4549913cc0418efa6c46ccb98aad3c271a77b0b93b1ae91f71a96e3b2b4a26c7d4b9feb93437c94485124db99406aa;
  0x1c39298f23e05f618009b9414bc602ebd0444d9893e008ded3f7b0d7cbb1c3e11dc32efd3baccc5f27e53736a3cbce43243395cabbac582209062c2bcbb25422c;
  0x1182e7b8b3ef5171c2d03729dbd500e709a7c33523ef06ce2dbb171a8bc5c38f79494c792bc0d0e8c49d821113dfcdef9f5ee383abc05e72b3fcdd52cbc6577d0;
  0x1ef667e0e3f932762928e6c4cbdf08ec7e9d1a3553f90f02d148076fcbd4a006b8d73dc57bcfbe785a895f8863eea995da98f7f8bbcf5bb7477811fe2bd549dd7;
  0x14d0d85fe3fde11bfa3159d62be45a986158de9663fe628f1b811848fbde3ea1de333f06dbd9957a1a69b9eb03f845f41ccefcbb9bd966929adc2a4d8bdf2b93f;
  0x15a930923bfcfde3769cc9f8abe5a36c2c7f937a03ffad0f4865adee6be1747fa18d85fdbbde3e46a8f36bd5f3fb7d0eb927ad987bded51d462ebe452be3d64d9;
  0x1ce86d0dcbfcf593509fedfbdbe317bd16558207c3fd1e2a8db5651563e29075b3a4c248c3dd5150a656a4750bfc99a944fec3aa5be01bd7c5d73af083e2f26f9;
  0x11f6dfd59bf673cfafcb31a82bdc2e3250146203e3f63523e15b51188be15bf07d589791f3dd4bd0b49aaf7b43fb63ef1fa6f6690bdd7a9fd41acb2713e2ea4f3;
  0x121f56cf03f673cfafcb31a82bdc2e325018cadb53f63523e15b51187bdba55cee028153b3d6ebf0ce77a074e3f5af0b74130d611bd6990561969cbfe3dc6b75c;
  0x1ccdc81803fcf593509fedfbcbe317bd1661e9e543fd1e2a8db565155bdba55cee1ab677dbd6ebf0ce8351b463f5af0b74130d610bd69905685d282e6bdc6b75c;
  0x1624bb5873fcfde3769cc9f8abe5a36c2c9183d913ffad0f4865adee7be15bf07d2e40c01bdd4bd0b7811b0153fb63ef1fa6f6690bdd7a9fd7cdba360be2ea4f3;
  0x14e8f9696bfde11bfa3159d62be45a9861555f86d3fe628f1b81184903e29075b36d129e3bdd51509952c3846bfc99a944fec3aa3be01bd7c6492b4dfbe2f26f9;
  0x1ef9b8c05bf932762928e6c4cbdf08ec7e97c18203f90f02d148076fcbe1747fa160696a23de3e46a658968993fb7d0eb927ad986bded51d45eabea883e3d64d9;
  0x117fee995bef5171c2d03729dbd500e709b23567a3ef06ce2dbb171a7bde3ea1de44b9fda3d9957a1c57b0a903f845f41ccefcbb7bd966929b02ffd7b3df2b93f;
  0x1c339e809be05f618009b9414bc602ebd037f12743e008ded3f7b0d7dbd4a006b8d99f35a3cfbe7858b618eba3eea995da98f7f8bbcf5bb740f13c7223d549dd7;
  0x197b60c94bcc5bf384eabcb34bb1fc82bbb8de1193cc0418efa6c46cbbc5c38f7936ee7b63c0d0e8ca5bb94d13dfcdef9f5ee3839bc05e72b48bfd94c3c6577d0;
  0x1a5fb178cbb347c7681122a63b98de00a3edee0993b2e8fc537ab357ebb1c3e11ddc26c603accc5f2a645ed223cbce43243395cabbac58220ab6bb6023b25422c;
  0x1cbc91cd3b9525bfbdf482efbb7aac2405f9ff2d8394b5fa69e22902cb98aad3c2784148b393b1ae8ce1318b63b2b4a26c7d4b9ffb93437c942b43d52399406aa;
  0x1d78e3cbfb71f4e1b3f7d5e2ab576cf7a51b0d121371755a709a89e29b7a7ec7012c0864137584a83a6d2211939487928f7a79781b7521be2bc38f7a537b1f26a;
  0x178c73ec0b499640f0dfe191cb2f2801893c1b66d3492eceb08e7b74ab574666ab1212e4a3524b5b42ac42a503714de69c405aa8eb51edfb2d33077c7357e9a19;
  0x1d91450eeb1c3977c1215a430b01c8cbb9e6b079431bd34aabc29a01fb2f08bf970fd7dfe32a0cc16ca82a5303490ed4e1ae55805b2990a46302276a332f8d20f;
  0x14a969b54ae9cc34a7beda146acf4f5013eea0e9a2e9570470bcadc74b01989151d4dd7fa2fc9ebf301e237f831ba1f49444ee61aafc352293d0ce79c302326d4;
  0x16511d7baab2416073e61bf06a97d451d3f9efc592b1df148e9876f9aacf2be98f0998f0a2ca307281d2601d52e932cdb09d9f4cdac9c5d7f52a1faeb2cfc1de7;
  0x1202a012fa75ab03281a0cb89a5b37209ca49bb672753e46b621bf43fa97a2e0abf3b586c292a9360febe04612b1ac80932d80c2da923cef0b487bde12983a288;
  0x1b0ec78d2275ab0326939d151a5b688227d047d9d2753e46b4febbb56a5b1647e02921c6b2561a7d0af289ed92751cacc42632b6aa55a51be166899ca25ba16bd;
  0x180fdf8082b2416072c042a13a980f5328461bfbc2b1df148ce26bae6a5b4272d08b1e34aa5608883aa07ecc02751cacc321e84aca558a5757588f8eaa5be3ac3;
  0x11ed9e3122e9cc34a61a10ce2acf84884f1f009d92e957046f830b041a97e55c427efc03fa928e2ecfb6e11ce2b1ac8091a5b45ffa9228c9bece801d6a986c053;
  0x1cb65adcb31c3977c002bc391b0208a5fde9ab00531bd34aaa1756197acf5b836b3cf1891aca1d1862a3ee8d82e932cdaf851930eac9a8fecbe4be0c3ad004a2a;
  0x1e7231c3e3499640ef6c6cf38b2f56fcad3acd6523492eceaf799cb87b01d969fff2d6e54afc8462364c707ae31ba1f492c6c6b84afc217c2cde9a7c3b02630fd;
  0x13223517d371f4e1b22ddb817b57a6e4c85866287371755a6f452a541b2f32c4b0b8c70f6b29f75830eff8a6d3490ed4e0b6b368ab29772cec1fd7439b2fcc28d;
  0x16f028b8439525bfbce7ec843b7af017fbbb3c9e0394b5fa6851b292eb577a34cd71a8becb52364b3af775a513714de69b0f0dd1db51ce94ccc200e12b581bac0;
  0x155fce8903b347c766e56ec5cb9914ef47249b3933b2e8fc51bb997c3b7abb87c9a145c22b756bf3c45b9e9ab39487928e14714d7b750f534d33959d4b7b4cba0;
  0x1cd932ac73cc5bf383ac970c9bb2269c1e97aa9e23cc0418eeb8f2e64b98ee92595e7447eb93961d7390b437d3b2b4a26aee0fb68b932eeca51cc32ddb997345a;
  0x17dc5cc263e05f617ec870d3cbc62c0425096d7813e008ded30582169bb205ccce64cab1ebacaf1bbcb2040b43cbce43228ceb20fbac4242234639cc6bb28a1ef;
  0x12c94e1f23ef5171c19bace04bd529ad5924332e63ef06ce2ccacbb76bc6059d817173097bc0b35b83d0b54c23dfcdef9db885372bc0482c04d7829aabc68e017;
  0x16b334adb3f932762810b0b0ebdf32f8b8c7de3d63f90f02d0503b57cbd4e20e748a70f8cbcfa21724efc5f663eea995d913d6585bcf459d098abb8ddbd57e385;
  0x14186c2ff3fde11bf879739d3be4919b0882cfa693fe628f1a3ce7f0cbde713458b9a56d5bd97bb3f73686bec3f845f41ba4f41fabd94fc7b7522bac2bdf5b204;
  0x1e4e31e2bbfcfde374ca93556be5e5fde7230bf6a3ffad0f46dd5f0fcbe1af9ec48d85fe0bde2a0b88f36bdc03fb7d0eb7cb42b18bdeb74ba92c40fc7be410795;
  0x1a2a50208bfcf5934ed551349be3442342fb9ef713fd1e2a8cafbd93c3e2d004f2918f1563dd3bdfaff03e04abfc99a9438831702be009ccf14beffeb3e320c5d;
  0x1660b308cbf673cfae773b0a6bdc5e28fbe22cb5e3f63523e040a808dbe19329c222fdf853dd36b939b4491493fb63ef1e618433abdd628eab8a486003e31c109;
  0x1645bd3563f673cfae773b0a6bdc5e28fbd8d68953f63523e040a808dbdbe83d80c6a7ba23d6ccabac16d3a803f5af0b7288eddddbd67f058ffb0fc103dca525a;
  0x1a2a173f33fcf5934ed551349be3442342efc35a43fd1e2a8cafbd93cbdbe83d80ade9ab2bd6ccabace9b82333f5af0b7288eddddbd67f058b09c536ebdca525a;
  0x1e4bf745e3fcfde374ca93554be5e5fde7156dc9c3ffad0f46dd5f0fcbe19329c22173f36bdd36b93ab44e3a73fb63ef1e618433bbdd628eacc74dbadbe31c109;
  0x14147cb4bbfde11bf879739d2be4919b087f2ba503fe628f1a3ce7f0e3e2d004f22045d12bdd3bdfaaec5d2dbbfc99a9438831704be009ccef4754b30be320c5d;
  0x16b37f26bbf932762810b0b0fbdf32f8b8c333d943f90f02d0503b57dbe1af9ec4a0696a33de2a0b88589688f3fb7d0eb7cb42b18bdeb74ba3a21908c3e410795;
  0x12c8f7662bef5171c19bace04bd529ad590f30ccf3ef06ce2ccacbb76bde713458a386ca73d97bb3fb4e170f63f845f41ba4f41fabd94fc7ba6a0e6233df5b204;
  0x17ccc79a3be05f617ec870d3cbc62c04250afc01f3e008ded30582169bd4e20e74a570cf33cfa21724e265b873eea995d913d6585bcf459d0b1af7fde3d57e385;
  0x1cd8bcc8ebcc5bf383ac970c9bb2269c1ea5a36b93cc0418eeb8f2e64bc6059d8170835753c0b35b8d37eae6b3dfcdef9db885373bc0482c025b235c23c68e017;
  0x1561b475bbb347c766e56ec5cb9914ef47194315a3b2e8fc51bb997c2bb205ccce6ad54093acaf1bbdf3b46bc3cbce43228ceb20fbac42422194cbac83b28a1ef;
  0x16f1bf08ab9525bfbce7ec843b7af017fbdd397b8394b5fa6851b292db98ee92596a62199393961d73e1b10e93b2b4a26aee0fb67b932eeca3e2715263997345a;
  0x131f8d40ab71f4e1b22ddb818b57a6e4c8511f8f4371755a6f452a541b7abb87c98e653f83756bf3c49f56ab739487928e14714d7b750f534e086b50137b4cba0;
  0x1e6c1a1f4b499640ef6c6cf38b2f56fcad53495073492eceaf799cb87b577a34cd712a544352364b3a86271cc3714de69b0f0dd1db51ce94ce361c5cb3581bac0;
  0x1cb140823b1c3977c002bc391b0208a5fddd7534b31bd34aaa1756198b2f32c4b0bcd14dc329f75831415d3793490ed4e0b6b368bb29772ceedf2506032fcc28d;
  0x11eb1b08eae9cc34a61a10ce3acf84884f3417dfc2e957046f830b040b01d969ffc2ec2cb2fc8462381d6165331ba1f492c6c6b84afc217c2b804ccff302630fd;
  0x181450a9bab2416072c042a13a980f53285c2f6092b1df148ce26bae6acf5b836b4525c302ca1d186438bd2d62e932cdaf851930eac9a8fecb689dde52d004a2a;
  0x1ae5d345ba75ab0326939d151a5b688227e009bec2753e46b4febbb55a97e55c42760025a2928e2ecf1f12a4d2b1ac8091a5b45ffa9228c9bd2710d7b2986c053;
  0x17af63c69275ab0324d5c887ca5b966ae549fb6d82753e46b3b26e529a5b4272d0985b9e325608883a8c238262751cacc321e84aca558a5759f8e059425be3ac3;
  0x135cac4d52b241607170b885fa9831e078abd1eba2b1df148aee3a516a5b6b82c8ab1e34ba55e80e7940fda2e2751cacc1f8afedea556bc6a0f67d88ca5c10a21;
  0x16859e3122e9cc34a4399447bacfb602a5728c9632e957046e1ce8c7ea9811959d92b1354a926f51dc83adf1d2b1ac808fe651989a9211c8b5c2281d5a989a607;
  0x1ba98e0fe31c3977bebb740a9b022a59a6cd1397831bd34aa82f739deacf87c483bcf1893aca06ff62a3ee9362e932cdae44c6420ac9880dd07c122e9ad025d37;
  0x148c4c1523499640edc444ce8b2f82aa3627c7c533492eceae3d75debb020ad9c206383f8afc6647b57fa3b6131ba1f4911266ec4afc0b0c0d700908bb0290470;
  0x19089b7e4371f4e1b022e70a9b57dcbf4fd4bb6c7371755a6dbf5bdafb2f59d57aa260a91b29d05493565f1793490ed4df9bef1b1b295a1880f43ca25b3003612;
  0x11d4f585139525bfbbb53aceab7b17a26ecb784f5394b5fa66886b0d6b57aa5e8044dbf20b521e3e395ddc11e3714de699b270439b51aaba0ed036eadb583fcbd;
  0x191634ef63b347c7658f357c5b99383379bfaecf03b2e8fc4fbd109a9b7af4031567ac28ab754fbe11286b6ef39487928c7b9d2a9b74f49719afd609eb7b77191;
  0x139f9912e3cc5bf382414e12bbb24c2088ff37a0c3cc0418eda963a3fb9916c6ce88d3bdab9376a31df71aa693b2b4a269262f574b931771d8f55c2a3b99a28d4;
  0x1329298f33e05f617d59932dbbc65238cf53696ab3e008ded1f0f7171bb227239b5e644b8bac8db173186a7a83cbce4320aa48ea5bac2947b3330f971bb2bc4f8;
  0x1f261aebf3ef5171c03b5c314bd54f95c2838168b3ef06ce2bb868aa2bc626ee4864a63cbbc0919cf49d8221e3dfcdef9bd63a33abc02ebc492c2b11dbc6c0b0a;
  0x1f099b1413f9327626d0b9250bdf5a1022dffc8383f90f02cf3547146bd50fb8dbe86bafabcf81af31bc92cbc3eea995d7577f31dbcf2c60116d1aa26bd5aee4d;
  0x1a9b9f6323fde11bf68323f0abe4c4bf8f47beadf3fe628f18cab8d47bdea038954cd8a0abd95e45b99ced2d03f845f41a50a2b94bd935c1035737608bdf8754b;
  0x1ffafeaf7bfcfde372b6377f0be611f0bacc678ef3ffad0f451d67494be1e695c973ec64cbde12f190269f1603fb7d0eb63d69055bde953ee9fec23dcbe4332c1;
  0x1f540353bbfcf5934cc9a34d3be36d6a4d1c727bb3fd1e2a8b84f69a23e3058e183bfabdd3dd2363f0bd0ac62bfc99a941dc7a85fbdfea65988dbbdf73e3458bf;
  0x1cde196f2bf673cfacf308b78bdc8ac05d39362333f63523defde48cabe1c6810fdbcac523dd1ea3b2a77c4783fb63ef1cede58fdbdd47135da2de7ba3e3403d3;
  0x1cd8f068a3f673cfacf308b77bdc8ac05d21acee73f63523defde48cabdc13352e15da4373d6a8f6d7a93a0e63f5af0b70c6e3868bd6615574fbf74da3dcdac73;
  0x1f5a173f43fcf5934cc9a34d3be36d6a4d1cc2f233fd1e2a8b84f69a3bdc13352e03c1a27bd6a8f6d81ceb5fe3f5af0b70c6e3869bd661557882d617cbdcdac73;
  0x1fbf2a7913fcfde372b6377efbe611f0bad43f00c3ffad0f451d67494be1c6810fe173f39bdd1ea3b2b44e4113fb63ef1cede58fdbdd47135af1e7120be3403d3;
  0x1ab3164e4bfde11bf68323f0bbe4c4bf8f620e1ec3fe628f18cab8d473e3058e1843561babdd2363e61f9072bbfc99a941dc7a861bdfea659466b2b65be3458bf;
  0x1efe98c05bf9327626d0b9250bdf5a1022dcd52dd3f90f02cf3547147be1e695c99d363703de12f18cb23021d3fb7d0eb63d69055bde953ee807d7fe53e4332c1;
  0x1f24b9995bef5171c03b5c314bd54f95c2836a6513ef06ce2bb868aa1bdea038953939fda3d95e45ba7fb0a8f3f845f41a50a2b93bd935c1055b9c7b93df8754b;
  0x132c4da09be05f617d59932dbbc65238cf63098ae3e008ded1f0f7171bd50fb8dbd3299ad3cf81af318298eba3eea995d7577f31dbcf2c600d04fc0393d5aee4d;
  0x13a3ba5b4bcc5bf382414e12bbb24c2088f51ecc23cc0418eda963a41bc626ee486cc27db3c0919cf678e94d13dfcdef9bd63a33abc02ebc43b56383a3c6c0b0a;
  0x191e1f462bb347c7658f357c5b99383379d4aa6cb3b2e8fc4fbd109aabb227239b54032303ac8db173c8a25223cbce4320aa48ea5bac2947b2d75bc423b2bc4f8;
  0x11d40cad8b9525bfbbb53ace9b7b17a26ed81813a394b5fa66886b0d6b9916c6ce8a5870c39376a31df37e81c3b2b4a269262f574b931771d8737fd79399a28d4;
  0x19023aa21b71f4e1b022e70aab57dcbf4fcc56410371755a6dbf5bdafb7af403155c4cca13754fbe0e56f22e639487928c7b9d2a9b74f49719e4733d337b77191;
  0x14790d810b499640edc444ce8b2f82aa362ea40543492eceae3d75debb57aa5e80402325a3521e3e3a4db75ea3714de699b270439b51aaba0c1489fab3583fcbd;
  0x1ba46e90ab1c3977bebb740a9b022a59a6c974dd531bd34aa82f739dfb2f59d57a8e28ead329d0549396d86213490ed4df9bef1b1b295a188218ec7d233003612;
  0x16731ac96ae9cc34a4399447bacfb602a57368b8c2e957046e1ce8c7eb020ad9c20275ab32fc6647b34fb92c031ba1f4911266ec3afc0b0c0d803e17530290470;
  0x13611d70bab241607170b885fa9831e078bc9a4ae2b1df148aee3a514acf87c483c144aca2ca06ff6238b29f42e932cdae44c641fac9880dd0a0c248e2d025d37;
  0x17aae9a29a75ab0324d5c887ca5b966ae55c704f62753e46b3b26e529a9811959d91b41632926f51dbebde8162b1ac808fe651989a9211c8b68e37f122989a607;
  0x1a35ca2d0275ab0322e4da399a5bc069a5651d8e22753e46b2400a5f6a5b6b82c89e92860255e80e791846f9f2751cacc1f8afedea556bc6a15f4dd2a25c10a21;
  0x1e5fdf8082b241606ffab8dd9a98517baba4d24802b1df1488c0b411da5b91128bce51680a55ba59460dca7bb2751cacc0ad6665ea5549b5117c2dacba5c2ccde;
  0x136d9e3122e9cc34a222051abacfe3451a98b3d492e957046c8dba061a982dda99bf7e022a924ceb4bb6e12e12b1ac808df3a76b5a91f04962846f15ba98c4c7e;
  0x10665adcb31c3977bd4ea89a8b02492dc0a6cf43031bd34aa60fa5666acfb03fbcecf1894ac9dcbbfd47dd33b2e932cdacdfbc3beac963564d829c9c3ad0442fe;
  0x1f0c4c1523499640ebeb7edc6b2faa9e746089dab3492eceacdd125a0b02266c9df96b72cafc44b9e24c708ba31ba1f48f2c02d60afbe4131e1ea09d6b02b9a36;
  0x10289b7e4371f4e1addc01cbdb5807013a8c06fd3371755a6c0cdf806b2f7d91a43260a92b29a4d833565f2303490ed4de60c1bb2b2939aed7bf4040cb301e2e5;
  0x1661c251e39525bfba5f61f03b7b348774fcbcaaa394b5fa648ab9d52b57d66d0514dbf22b52036f7d5ddc18e3714de6982ddd79cb5182c33208a3f47b5860d74;
  0x14e634ef73b347c76411c2836b995875f791ffdd53b2e8fc4d840361db7b13d6d1b709479b75304c99f53844039487928ab3ecfe7b74c5b5637149dacb7b9ddb5;
  0x1105ff7953cc5bf380ac616bfbb26e721e57daba13cc0418ec7ab4283b9933952338d3bdbb93538d25f71aafd3b2b4a2672a0e6f5b92fa8c455b127f3b99cdcd0;
  0x1902c328d3e05f617bc0a8c95bc6752b9dcc6f0423e008ded0bcb9a4bbb245a2c417fde53bac6872c57ed0eab3cbce431e90550c0bac0d7065f8e92babb2ea38a;
  0x15c61aebf3ef5171beb2a9b7bbd57242d041f257a3ef06ce2a86926d7bc64567ee8b0ca32bc06c003e371bc563dfcdef99bca7870bc012622c026f567bc6ef0d9;
  0x1b88017a83f93276256c14fb5bdf7dd25c01d53f63f90f02cdf9e43f5bd52bcc94b86bafbbcf5d9061bc92d543eea995d5683a018bcf103e847fed24fbd5db6b1;
  0x1236d29663fde11bf4534138ebe4f387df3cd3a6e3fe628f172e1b9c8bdecb3aa8800bd3fbd93d77e403539c23f845f418d54f8f3bd918be9a50ac0cebdfafc46;
  0x14f7cb7c4bfcfde37064d6f2abe62e3f2139eabba3ffad0f432a1708cbe20c6e956d2965dbddf2637eb3a4a183fb7d0eb481f571bbde6f4b16d7966bbbe452e99;
  0x1e1369ba1bfcf5934a81ef5cebe3932c703285c433fd1e2a8a37f0c523e32094df9f2df0f3dd0819c589d7867bfc99a93fffbd6a1bdfbc7840b97572c3e3672f8;
  0x161acb1dfbf673cfab4257c0cbdcb38a84063ce9e3f63523dd9622636be1f577d245645ec3dd03cb7f0de2ada3fb63ef1b4faeb03bdd2871ac10bfe6b3e361545;
  0x161c783453f673cfab4257c0cbdcb38a84032d7b93f63523dd9622636bdc2fa51aee871043d6812a463e06db33f5af0b6ed143e56bd6403e4451c31673dd05eb2;
  0x1e0bb0d8d3fcf5934a81ef5cebe3932c70267ba803fd1e2a8a37f0c52bdc2fa51ae3c1a28bd6812a481ceb6a63f5af0b6ed143e56bd6403e461842fa9bdd05eb2;
  0x15125dac53fcfde37064d6f2cbe62e3f2136d90d73ffad0f432a1708bbe1f577d1fb0d8d6bdd03cb844de7e213fb63ef1b4faeb04bdd2871b13b5abb8be361545;
  0x122149818bfde11bf4534138fbe4f387df424d7923fe628f172e1b9c93e32094df96894ebbdd0819c952c3b98bfc99a93fffbd6a3bdfbc7843ef619efbe3672f8;
  0x1b8818c05bf93276256c14fb5bdf7dd25c01050413f90f02cdf9e43f5be20c6e957367e853ddf2637ccac6a883fb7d0eb481f571cbde6f4b1592670cd3e452e99;
  0x15d1bd32ebef5171beb2a9b7bbd57242d037cacf13ef06ce2a86926d6bdecb3aa88bb9fda3d93d77e40fb0a8e3f845f418d54f8f4bd918be9cb8eadc13dfafc46;
  0x1907029a3be05f617bc0a8c95bc6752b9dcae4c3c3e008ded0bcb9a4bbd52bcc94b5273473cf5d906103328543eea995d5683a019bcf103e848a385a03d5db6b1;
  0x1102acc7abcc5bf380ac616bfbb26e721e4d13a3e3cc0418ec7ab4283bc64567ee8fc59753c06c004441bae6b3dfcdef99bca7870bc012622cff43a893c6ef0d9;
  0x14dca098dbb347c76411c2836b995875f77ad199d3b2e8fc4d840361ebb245a2c41af87563ac6872bf9bb43893cbce431e90550c0bac0d7066d17f8d53b2ea38a;
  0x166751e05b9525bfba5f61f03b7b3487751067922394b5fa648ab9d52b99339523339e8ef393538d29b3b6fcf3b2b4a2672a0e6f5b92fa8c48496414b399cdcd0;
  0x101e1cd16b71f4e1addc01cbcb5807013a900ab3c371755a6c0cdf807b7b13d6d1c840f66375304c96e27aad639487928ab3ecfe8b74c5b5635472c1e37b9ddb5;
  0x1f08d560eb499640ebeb7edc7b2faa9e7470cf6753492eceacdd125a0b57d66d0502621be352036f7d9e149d83714de6982ddd79cb5182c330b46b10735860d74;
  0x105135ad7b1c3977bd4ea89a7b02492dc0a5351ff31bd34aa60fa5667b2f7d91a4356af05329a4d83384230ee3490ed4de60c1bb2b2939aed6757b7d83301e2e5;
  0x136b1a834ae9cc34a222051acacfe3451a8f769322e957046c8dba061b02266c9df24176d2fc44b9e01b9357631ba1f48f2c02d60afbe4131eeb3d5fd302b9a36;
  0x1e64509d7ab241606ffab8dd9a98517babb1488092b1df1488c0b411dacfb03fbcf3a26db2c9dcbbfc714de6b2e932cdacdfbc3bfac963564d4dbbc432d0442fe;
  0x1a215008ca75ab0322e4da39aa5bc069a56ba1a3f2753e46b2400a5f6a982dda99bfec40f2924ceb4b1f10ab02b1ac808df3a76b5a91f049655681c27298c4c7e;
  0x10a763c6a275ab0320c59b4efa5be616dec111ba72753e46b0ab2106aa5b91128bd0cce97255ba5945e513bad2751cacc0ad6665ea5549b50fe7869e225c2ccde;
  0x1dc645e6f2b241606e61ddb85a986dd6d4fb42f132b1df14865f3777ea5bb2c57eeb1e34ea5588617940fdbbf2751cacbf433c75ba5524769e24dfc31a5c46142;
  0x1e60d16462e9cc349fd88ba80ad005f00c6de68512e957046ad956e5aa9847376399179bca922750061d479e52b1ac808bd283430a91b839ddff5232aa98ead31;
  0x120cc143231c3977bbbfdd485b0264d64a14795d231bd34aa3bd2828aacfd49149168b22fac9a6e1cbae43a832e932cdab596b5efac93b32acb17ae82ad05f6d0;
  0x1aff7f4863499640e9e6a8b2bb2fce76e6ea2f44e3492eceab5bd6f37b023f2998a3050c7afc200b80b2d6fba31ba1f48d18499e1afbad64b6aca960bb02debee;
  0x108d684b1371f4e1ab5ec8da3b581d1a625abd94d371755a6a31e4755b2f9da1135bfa42db29754e41bcc595d3490ed4dd0834541b29163fc2b027513b30363a0;
  0x165b5beb839525bfb8e9acb4db7b4e73d3e65c3b6394b5fa625d8784db57fdf3bd9b4258ab51cc42605551dab3714de6968513738b515712dd9ad689eb587e7cc;
  0x17f96822a3b347c76270c249bb9975673777f273b3b2e8fc4b15ecc5ab7b2b04099d6fae1b750dece38ed1e6a394879288c1c43fbb749275115124d6ab7bc0a14;
  0x121fcc8973cc5bf37ef1b7676bb28d3c423a998573cc0418eb2fceb1fb994d6d25b5a08a9b932d32052a4ded03b2b4a264fe91befb92c153f20144ad0b99f49a3;
  0x1592fb2e03e05f617a01a1ccdbc69486669a2a04a3e008decf6bc1b04bb260ff187e644bbbac3fbb53186a8ef3cbce431c443dcd7babde0192316b89abb309b49;
  0x188fda42c3ef5171bd055d9d6bd5915f04886e3943ef06ce29383b057bc660bf5177d9700bc042e2196a4f0353dfcdef9770fa893bbfe6c7149889905bc70c530;
  0x1b18017a83f9327623e633792bdf9de73b47682133f90f02cca11c67bbd544fd2bfed2163bcf3613b3562c7933eea995d34acbd40bcee2fb95d3d039fbd601ae9;
  0x19e6d29663fde11bf1ef2fd05be50ec050b86ec043fe628f156b098d6bdef1d08a600bd41bd9199b5c0353a583f845f41736a1d3abd8f210227cf8c13bdfd40b9;
  0x1eeafeaf7bfcfde36ddc289cebe647a45d5ef4ad23ffad0f41083d52cbe222fc79ed29660bddba171eb3a4b1f3fb7d0eb29d2d423bde45cdbe2e900ddbe46f637;
  0x119969ba1bfcf5934803d4760be3b50c95230842f3fd1e2a88cbe11f23e338d42d5bfabda3dcd488f97a15583bfc99a93df691792bdf8a431c6770a043e3855d7;
  0x1084b31dfbf673cfa96952ea4bdcd822e02263f623f63523dc0cd881abe20fcd1fd6b22f63dccce5945bc55a93fb63ef198adccb3bdd06f52ab12a5ce3e37f046;
  0x108ade9ac3f673cfa96952ea3bdcd822e023114f03f63523dc0cd881abdc49286b16871043d655a81d8a06db23f5af0b6cace3b09bd61c1177acefcb93dd1becf;
  0x11ad4a7273fcf5934803d4760be3b50c951d732763fd1e2a88cbe11f1bdc49286b06f4d5dbd655a818e9b84293f5af0b6cace3b09bd61c117e1390e9abdd1becf;
  0x1eb25dac63fcfde36ddc289cdbe647a45d5c4162f3ffad0f41083d52dbe20fcd1fea5393abdccce59bcf030743fb63ef198adccb4bdd06f52f0f4551abe37f046;
  0x19ea164e4bfde11bf1ef2fd05be50ec050b7e43fe3fe628f156b098d63e338d42d76894e9bdcd48922a5879dcbfc99a93df691793bdf8a43211228cb0be3855d7;
  0x1b1b158d1bf9327623e633792bdf9de73b3ff98113f90f02cca11c67bbe222fc79d69b1b93ddba172664604063fb7d0eb29d2d422bde45cdbbbc3d7d13e46f637;
  0x189174ccabef5171bd055d9d6bd5915f048e7ca213ef06ce29383b057bdef1d08a71139743d9199b5de47d7593f845f41736a1d3abd8f2101d6b54b3c3dfd40b9;
  0x1594bd29ebe05f617a01a1ccdbc694866699521573e008decf6bc1b04bd544fd2be4059ad3cf3613b13518eba3eea995d34acbd3fbcee2fb960f8c5ae3d601ae9;
  0x1225a7abdbcc5bf37ef1b7676bb28d3c42299a6fb3cc0418eb2fceb1ebc660bf5166e7f0e3c042e21a005c8043dfcdef9770fa893bbfe6c71982efe493c70c530;
  0x17f2da8efbb347c76270c249cb997567378a7eb633b2e8fc4b15ecc5abb260ff1874a12563ac3fbb590c21b893cbce431c443dcd6babde019725436183b309b49;
  0x166110b5eb9525bfb8e9acb4db7b4e73d3d0f3847394b5fa625d8784eb994d6d25c259b7b3932d3206bd600cf3b2b4a264fe91befb92c153f5826d79d399f49a3;
  0x108e7127eb71f4e1ab5ec8da3b581d1a6261a9247371755a6a31e4754b7b2b0409a4827913750dece72cf3a2e394879288c1c43fbb7492750cd898dcf37bc0a14;
  0x1aebcba02b499640e9e6a8b2bb2fce76e6f650bc63492eceab5bd6f36b57fdf3bd9c4e8ee351cc425f58462173714de6968513738b515712dbe935f453587e7cc;
  0x120795e6bb1c3977bbbfdd484b0264d64a057ed7a31bd34aa3bd2828ab2f9da1136fce65b329754e41d6382a93490ed4dd0834541b29163fc36061ac8330363a0;
  0x1e5e4d6a4ae9cc349fd88ba81ad005f00c70831f52e957046ad956e59b023f299893438402fc200b7e80f23d931ba1f48d18499e0afbad64b5ae7a9e6302debee;
  0x1dcab6fceab241606e61ddb85a986dd6d515c71902b1df14865f3777eacfd49149210b42d2c9a6e1ced79af342e932cdab596b5efac93b32ad9058acc2d05f6d0;
  0x1092e9a21a75ab0320c59b4efa5be616dec808ed22753e46b0ab21069a98473763992da042922750058575f102b1ac808bd283430a91b839dd80b49d1298ead31;
  0x1b68fd604275ab031e7d471c1a5c038ad7106bd2d2753e46aef7988f4a5bb2c57eeaffa9c2558861791846e102751cacbf433c75ba5524769df8bd88925c46142;
  0x1b418959e2b241606caa1716aa9886ac0be7f72b32b1df1483cfa327ca5bd0488d27eb01ca5552a2447430fd12751cacbdbdaf003a54f8ce36e10e047a5c5c366;
  0x1fca6afe02e9cc349d62cb608ad017b7c24b333812e957046903f3476a985d6d73ac4acf1a91fdb925d428eb32b1ac80898825202a917becde3b659a1a9906121;
  0x14d98e0ff31c3977ba12e945eb027d0f12cf3d45531bd34aa13db58ecacff45f9e2357efeac96cf50ee176ea62e932cda9b595f60ac91005f7cb0bf74ad07747c;
  0x102c4c1533499640e7babc899b2feddb2e654d5f33492ecea9bd796d5b0254d3b4d6383fbafbf12ddaff47a5531ba1f48adc5a303afb7293a398a17fcb02ff3e1;
  0x133a3517e371f4e1a8b15f3b0b583074a419276ff371755a6832fdc04b2fb9b4bdb260a95b29422bf3565f3cb3490ed4db95985d6b28e045666a577b1b304b48e;
  0x16ae8f1ec39525bfb757b4758b7b6527a2029e3fd394b5fa600631d5fb5810489ba8d45f9b518d36edeeeb84b3714de694bc29796b512814aa68ca4c8b5898734;
  0x1cb31a77c3b347c760b038e46b998ebfdf1ff5a0e3b2e8fc4878ca7b4b7b3f500e9a3c7afb74d1e765840a46d394879286a9ef1a1b745b547811d109ab7bdf152;
  0x10b7cc8973cc5bf37d15935f8bb2a8330c38f9a9a3cc0418e9cbe30dab99640f1f38d3bddb9303f051f71ac483b2b4a262a912c86b9283c7d357a923ab9a0b4a9;
  0x1691619473e05f617820cc545bc6affbdc8d367aa3e008dece014dfecbb278f5243e644bcbac13ef9b186a9a53cbce4319cbad12abab9c87c45177a79bb31bbdc;
  0x1af640a933ef5171bb379a483bd5ac9dac93d72133ef06ce27d09abcfbc678b108eb0ca35bc016a7da371bdb93dfcdef94f8dc182bbfa419c0475b9e7bc71e89b;
  0x1d419b1423f932762242d5d6dbdfb9ffa89d1a68a3f90f02cb2e4194fbd55b0c876205497bcf0b9a9022f95103eea995d1046b83abcea0d349a172f02bd6132c5;
  0x1d56d29663fde11bef5cd4b83be521212df74a5523fe628f1385dabb4bdf09cd8d166c508bd8e6111339da9273f845f4157897e1abd8add7146310a07bdff3d0d;
  0x166e31e29bfcfde36b226bc2abe65de1d329243203ffad0f3ebd1be76be236bcf6ed29664bdd7d88beb3a4c373fb7d0eb093bba77bde192d1bcd17056be488539;
  0x191769ba1bfcf593455577cafbe3d2b737b8c697d3fd1e2a8744493843e34e1039e8c78a53dc945b57e07ba19bfc99a93bc5fb9b7bdf5441f021f241e3e39fcb8;
  0x1c11ccb79bf673cfa76c88649bdcf82f38bc9a6fc3f63523da65d0867be222403c32b22f63dc8dc3b39bc559d3fb63ef17a3cc452bdcc5e085e1c65733e399041;
  0x1c11450123f673cfa76c88649bdcf82f38b7c3d6d3f63523da65d0867bdc5f80380f9a4373d626db98953a0e53f5af0b6a5f0ae23bd5ea50bb16b2cdd3dd2f32b;
  0x1916e40c13fcf593455577cafbe3d2b737b142a263fd1e2a874449384bdc5f80380a28091bd626db99b6851b93f5af0b6a5f0ae23bd5ea50bb0d4f2d4bdd2f32b;
  0x162bf74603fcfde36b226bc2abe65de1d32675c043ffad0f3ebd1be77be222403c3720608bdc8dc3b702364b93fb63ef17a3cc451bdcc5e0820e5e59bbe399041;
  0x1d50e31b1bfde11bef5cd4b84be521212df5239653fe628f1385dabb53e34e103a1022e80bdc945b75d8bafeabfc99a93bc5fb9b7bdf5441f9ce47ec2be39fcb8;
  0x1d48cf26bbf932762242d5d6dbdfb9ffa8b5d36ba3f90f02cb2e4194fbe236bcf6f9ce4ec3dd7d88c5fdf9d833fb7d0eb093bba77bde192d19915a4de3e488539;
  0x1af9bf664bef5171bb379a483bd5ac9dac8dbd41d3ef06ce27d09abcfbdf09cd8d24236543d8e6110dbc2e1e43f845f4157897e1abd8add70a094d8fb3dff3d0d;
  0x168a69c05be05f617820cc544bc6affbdc8ff8e663e008dece014dfecbd55b0c876640ce03cf0b9a92a34c1ed3eea995d1046b83abcea0d3487aec4683d6132c5;
  0x10ba0c8b7bcc5bf37d15935f8bb2a8330c2293ff53cc0418e9cbe30dabc678b108ec24fdb3c016a7d939e14d13dfcdef94f8dc182bbfa419bbafe2dee3c71e89b;
  0x1cb222889bb347c760b038e47b998ebfdf28e3aab3b2e8fc4878ca7b2bb278f5243ee95093ac13ef9a8316ebc3cbce4319cbad129bab9c87bccdc844d3b31bbdc;
  0x16bedadb1b9525bfb757b4757b7b6527a1f9c2f86394b5fa600631d5eb99640f1f2b0e94139303f051a475cb63b2b4a262a912c85b9283c7d25069a1939a0b4a9;
  0x133675de7b71f4e1a8b15f3b0b583074a41cac665371755a6832fdc06b7b3f500e8b21ed2374d1e76047f3b7b394879286a9ef1a2b745b547bc83f7b837bdf152;
  0x1028573b4b499640e7babc899b2feddb2e78d44973492ecea9bd796d4b5810489baedb5653518d36ef59d85d63714de694bc29796b512814a7950bed535898734;
  0x14c45c184b1c3977ba12e945db027d0f12c8045a731bd34aa13db58eeb2fb9b4bdb3ff7a9329422bf35a169943490ed4db95985d6b28e0456797450733304b48e;
  0x1fb7e6b26ae9cc349d62cb608ad017b7c24d07f3c2e957046903f3475b0254d3b4cff33872fbf12dd6994a69c31ba1f48adc5a303afb7293a7dafb8ee302ff3e1;
  0x1b43c1e12ab241606caa1716aa9886ac0c030f20e2b1df1483cfa327bacff45f9e36239982c96cf50e0ab30902e932cda9b595f60ac91005fc674a2712d07747c;
  0x1b64833b6a75ab031e7d471c1a5c038ad717a01002753e46aef7988f4a985d6d73abfe39d291fdb924a4831292b1ac80898825202a917becdc98b75a229906121;
  0x18aa96f9d275ab031c117e3eda5c118a5d3b61f7e2753e46ad29a2beea5bd0488d299a03325552a2444b7a0652751cacbdbdaf003a54f8ce365936c9225c5c366;
  0x1a4b22f382b241606ad7a1341a989bbe171e1c2852b1df14811847688a5be952f414b7ceba5519a02ba7643f02751cacbc207e6e7a54a3d298da7c245a5c6efe3;
  0x17d0d16462e9cc349ac6d4ddcad026cdd8fb1acf42e9570467121468fa9870460769179bfa91a7e9a43a8f67c2b1ac80871a32a76a913bf74047ba0b2a9914348;
  0x1d04c708031c3977b84bee1ffb02919c6316a9b6c31bd34a9e97761adad007ae28db45919ac92f848fae43c712e932cda7f847121ac8c4753f85d225ead08b855;
  0x13b918e203499640e56d14f61b30043ef2cd6c9ed3492ecea805f75d4b02673588c6383fcafb9d7af2ff47baf31ba1f4887db69c4afb3430e8bcc7600b030d686;
  0x15489b7e5371f4e1a5da5ec2db5840e049641ef62371755a661516f76b2fd1876a28c70fdb290bef50eff8e453490ed4da0c7f8bfb288f6b32ee4c5f4b305d26f;
  0x1314f585239525bfb5ad58384b7b786ae682bea2c394b5fa5d8a7e64fb581ef80d4a6df94b514a5826bbb862c3714de692d78607bb50ec78eecbee210b58ae7ac;
  0x10ee4daaf3b347c75ed478283b99a44170f2fb4e13b2e8fc45b30e350b7b5088d5f3d6149b7483785a50d727e39487928471969b1b7420dba171f2137b7bf8ebe;
  0x146fcc8983cc5bf37b1c8b374bb2bf14018b85a193cc0418e8525eb9bb99774342c26d578b92b05b80bb026c73b2b4a2602f529f9b92427fb7043844fb9a19b52;
  0x17c7c7fad3e05f617622c9d4ebc6c7484ceba05a03e008decc80dc28cbb28d49d3ee644bdbabcaf73e30d54ca3cbce43172cba65abab5715052aca5f3bb32b0b6;
  0x126973dc63ef5171b94dd228bbd5c3bb9cb33413e3ef06ce265328350bc68d020c5e3fd69bbfcf7d4e07d16903dfcdef925a62a44bbf5d60c7bffb7ddbc72dfdf;
  0x1ee99a56e3f93276208605fe0bdfd1d65f8d387393f90f02c9a4e6173bd56dc443ab9ee32bcebd1b5512bf8623eea995ce9ab4dddbce5aa7696b193b5bd62203b;
  0x10b6d29673fde11beca287102be530b937a9a2c023fe628f11833b540bdf1823840cd2b70bd8943d0e6d0ddae3f845f4139f7d65cbd8657a3dc269ad1be00762e;
  0x11316515cbfcfde3683e589b9be670c0ada1be2123ffad0f3c4e5a4ccbe2477f5a6d29668bdd3d4ddeb3a4d5f3fb7d0eae6aa635ebddd3ae8fd52018fbe49d7c8;
  0x1b2ae9ba1bfcf593427d75879be3ebe333e58c1ad3fd1e2a85a4ee81f3e36014aba5945713dc5048de46e1e96bfc99a9397361e51bdf1af9e05541f7f3e3b6387;
  0x14bdbbeacbf673cfa550de922bdd09b04545c1e363f63523d8a51d651be231e7c170b22f63dc4acd5f9bc55913fb63ef159f2def4bdc7977e38e475963e3af136;
  0x14cade9ac3f673cfa550de921bdd09b0453e09a313f63523d8a51d650bdc72756c14d0a9e3d5ea703e6f40e953f5af0b67ed67b2bbd597c5aae3251e53dd3f8d0;
  0x1b1a173f53fcf593427d75878be3ebe333eb244e43fd1e2a85a4ee81fbdc72756c16f4d60bd5ea7041d370b733f5af0b67ed67b2bbd597c59c7d1f024bdd3f8d0;
  0x113f2a7943fcfde3683e589bbbe670c0ada1c9e093ffad0f3c4e5a4ccbe231e7c170b9fa4bdc4acd5d689cc403fb63ef159f2def4bdc7977e15997b09be3af136;
  0x10af7cb4bbfde11beca287102be530b937a71765a3fe628f11833b5403e36014ab83561b1bdc5048fc3f21953bfc99a9397361e51bdf1af9e594fd618be3b6387;
  0x1ee60f936bf93276208605fe1bdfd1d65f96d20d63f90f02c9a4e6172be2477f5a6834b533dd3d4de0312d0973fb7d0eae6aa635ebddd3ae95453ed563e49d7c8;
  0x126b7ee64bef5171b94dd228bbd5c3bb9cabccf423ef06ce265328350bdf18238407036543d8943d117c2e1e23f845f4139f7d65bbd8657a43062e2403e00762e;
  0x17c9513d1be05f617622c9d4ebc6c7484cffcc90d3e008decc80dc28cbd56dc44398dace03cebd1b53c6983da3eea995ce9ab4ddcbce5aa76d4027b523d62203b;
  0x14744d280bcc5bf37b1c8b374bb2bf1401819e3cb3cc0418e8525eb9bbc68d020c62239753bfcf7d4f0e15cd53dfcdef925a62a43bbf5d60c64bce5843c72dfdf;
  0x10ef6d329bb347c75ed478283b99a44170f01c6c23b2e8fc45b30e34fbb28d49d3f8507fd3abcaf73e86963df3cbce43172cba65abab5715072d320e93b32b0b6;
  0x130b1c7bdb9525bfb5ad58384b7b786ae6816580f394b5fa5d8a7e64fb99774342c1f5a07392b05b917ab249f3b2b4a2602f529f9b92427fb60caa1ff39a19b52;
  0x154fd0587b71f4e1a5da5ec2db5840e049659a630371755a661516f76b7b5088d60398b0e374837857087ebb839487928471969b1b7420dba253d7ad637bf8ebe;
  0x13b4df398b499640e56d14f61b30043ef2cbc50083492ecea805f75d3b581ef80d4ba89e93514a582678011873714de692d78607ab50ec78ea73404d2358ae7ac;
  0x1d022a8fbb1c3977b84bee1ffb02919c63107952b31bd34a9e97761adb2fd1876a254d88a3290bef50dcc0bb43490ed4da0c7f8bfb288f6b2f292b9443305d26f;
  0x17ce4cc2bae9cc349ac6d4ddcad026cdd8fcc4a102e9570467121468fb02673588b518fd72fb9d7af696f782131ba1f4887db69c3afb3430ed574da203030d686;
  0x1a4d5b76dab241606ad7a1341a989bbe172b593aa2b1df14811847688ad007ae28e006c5a2c92f848ed76337c2e932cda7f847120ac8c47545f70774a2d08b855;
  0x18a61cd49a75ab031c117e3eda5c118a5d3eeafe02753e46ad29a2befa987046076b52f30291a7e9a30ae6edd2b1ac80871a32a76a913bf74606c00bd29914348;
  0x1b4296f9e275ab03198838beaa5c1ce77f10764502753e46ab45b282ba5be952f4131046e25519a02b7ead2ae2751cacbc207e6e7a54a3d29b35d589925c6efe3;
  0x1314bc8d22b2416068eefa160a98acd90414fd3632b1df147e3fd6942a5bfda6f774b7ceca54bbcf8f4ec89cc2751cacba6fa5705a544acc0c3d5a4ada5c7e3d3;
  0x1fc8d16472e9cc34980b16ef2ad0330d1ec7d0cea2e95704650885c04a987f92a835e468da914e0502a0f5e542b1ac80848ea9352a90f1ed65257d6e5a991fae0;
  0x1b9660a1931c3977b66f4d8ebb02a24b8fc538db131bd34a9bd0f1f70ad012a26d734591aac8de4f5f5c87af42e932cda625c8923ac86482ed547c7aead09bf3b;
  0x18f44c1533499640e3035fb76b300f0eb0f63d6ba3492ecea6398c55db027621c303050caafb45ccb165ae37f31ba1f486023680bafae5acd083a71f2b0318999;
  0x17723517f371f4e1a2e0c7ceeb584e34d69494747371755a63dd681e8b2fe4de5d5260a98b28a63c46acbeb293490ed4d870b3062b283ab83e242a53ab306ba83;
  0x13d3478f639525bfb3eeb3257b7b880e24251ea8a394b5fa5af08c76eb582ae3ff48d45fbb51044b09eeeba7f3714de690dbd3f49b50840a7c6f97cd3b58c05cf;
  0x1e2fe74493b347c75ce215036b99b5b6e76565de53b2e8fc42cb8dbe9b7b5e83ea6a3c7b1b74314e25840a7033948792821e33f8bb73c73559ce92d6ab7c06f2e;
  0x1337cc8983cc5bf3790b7c0c3bb2d1a6bad22ec043cc0418e6c6e472eb9986da382f3a246b9254ac772168ea73b2b4a25d976bbabb91fc38e7a4d0d7db9a25691;
  0x1f72fb2e13e05f61740c83b1fbc6da3246f8951ba3e008decaee1fff8bb29dcb083e644bfbab69a3be30d565a3cbce43146ddbf18bab0e54620dd4aa1bb33777c;
  0x17ffda42d3ef5171b74cbcc38bd5d67fd6b57f6073ef06ce24c38fdb5bc69d804527d9704bbf6d343ad49e4f13dfcdef8f9c032dcbbf134a5966e6c68bc73a89a;
  0x138333f083f932761eb40c94cbdfe5309a8ffcf7e3f90f02c808d3b8fbd57cf63b2ed2167bce5eb82eac593803eea995cc139aceebce1124f0d988281bd62e100;
  0x195205c9a3fde11be9c700748be53d61fbf0aa03c3fe628f0f68201a7bdf23c6d2299f83ebd83e8484d3745783f845f411afe0c5fbd819ac3403eb2a1be012541;
  0x16816515cbfcfde365370fc04be6801266c99d5653ffad0f39c1f7dddbe2551a52e05c9a0bdcf4093a34169f53fb7d0eac2740826bdd7081ec84a2903be4aea9f;
  0x14b0b686ebfcf5933f82d0849be400293d3ee11e53fd1e2a83f1d10203e36eb515d59456f3dc08f93646e1c97bfc99a937047e46ebdebdf06d3f5218d3e3c86cf;
  0x19ddafeacbf673cfa31b87f1ebdd14b9e578b1f5c3f63523d6cf11591be23e9d171e4bc903dc04a759355ef1e3fb63ef1381fb784bdc296c8ee052a253e3c0fbf;
  0x19ce11cdf3f673cfa31b87f1ebdd14b9e588782643f63523d6cf11591bdc81d94a2420a9e3d58270411740e943f5af0b655e0097abd5414d4fdddc0f13dd4cd37;
  0x14a3b0d8e3fcf5933f82d084abe400293d3e7cd533fd1e2a83f1d1020bdc81d94a308e6fbbd582703ea03d9ed3f5af0b655e0097abd5414d4b71768fbbdd4cd37;
  0x16a590dfb3fcfde365370fc04be6801266c11dc573ffad0f39c1f7dddbe23e9d171d86c73bdc04a7509bd00a13fb63ef1381fb783bdc296c8b4b611cabe3c0fbf;
  0x194aafe7ebfde11be9c700748be53d61fbf2b36993fe628f0f68201a73e36eb515e9bc814bdc08f9390bee944bfc99a937047e46dbdebdf066b73e051be3c86cf;
  0x13778ac69bf932761eb40c94bbdfe5309a8a074fe3f90f02c808d3b8ebe2551a52d5018203dcf4093a2f26dbc3fb7d0eac2740825bdd7081e9ad4178e3e4aea9f;
  0x17fc83b31bef5171b74cbcc38bd5d67fd6a8e38643ef06ce24c38fdb5bdf23c6d228c9cba3d83e848278faeac3f845f411afe0c5fbd819ac3c1d4451b3e012541;
  0x1f6822105be05f61740c83b1fbc6da3246fc8c8f73e008decaee1fff9bd57cf63b339c67a3ce5eb82f1ecb70d3eea995cc139acefbce1124eedc8315c3d62e100;
  0x133ba7b30bcc5bf3790b7c0c3bb2d1a6bab914cec3cc0418e6c6e472ebc69d80452c66bdb3bf6d344399529a23dfcdef8f9c032dcbbf134a5541188af3c73a89a;
  0x1e3247281bb347c75ce215036b99b5b6e77c5d3693b2e8fc42cb8dbe9bb29dcb083d1d1bd3ab69a3b618483df3cbce43146ddbf19bab0e54644f6369a3b33777c;
  0x13cf59eb3b9525bfb3eeb3257b7b880e24323ee22394b5fa5af08c76eb9986da382fcd25e39254ac7361561053b2b4a25d976bbabb91fc38e99b30a0839a25691;
  0x178426a0bb71f4e1a2e0c7cefb584e34d6933d185371755a63dd681e7b7b5e83ea83f45af374314e22e59cf783948792821e33f8bb73c7355a8dc580837c06f2e;
  0x18efcaaaeb499640e3035fb77b300f0eb0e9df1f73492ecea6398c55db582ae3ff42c624e351044b0bea193bd3714de690dbd3f4ab50840a80dfce88e358c05cf;
  0x1b8bc0868b1c3977b66f4d8ebb02a24b8faf87bf731bd34a9bd0f1f71b2fe4de5d55f385c328a63c465677d233490ed4d870b3064b283ab8408ff03063306ba83;
  0x1fc64c690ae9cc34980b16ef2ad0330d1ec7ec9d52e95704650885c04b027621c2ebe4dc72fb45ccacfaf17ec31ba1f486023680aafae5accf62e5c1d30318999;
  0x131ef50c5ab2416068eefa160a98acd904240b9832b1df147e3fd6942ad012a26d7a7ea232c8de4f5dae8abf22e932cda625c8922ac86482ed67058532d09bf3b;
  0x1b3e1cd44a75ab03198838beaa5c1ce77f15e45582753e46ab45b282aa987f92a8319407f2914e0511714aad12b1ac80848ea9353a90f1ed5c8468ff02991fae0;
  0x1c75ca2d1275ab0316e7b755ba5c25863829b465a2753e46a95070f70a5bfda6f771658ad254bbcf8efd5a3732751cacba6fa5705a544acc0a86ba8f625c7e3d3;
  0x1b7b22f382b2416066f4d6786a98b9d2a6a3365f12b1df147b4d5493ea5c06893c7728b44a544018bc1b958942751cacb8af4f2c5a53dd2bfa22e0495a5c89cdd;
  0x152c0497a2e9cc3495364ebcfad03c5761f1401492e9570462ec4d28da988b2d9dd9179c1a90e1d1f8751f2d62b1ac8081ebcf194a906720a3f643807a9928623;
  0x1e0b2d6e631c3977b4819ea83b02aef376622c36231bd34a98f100dc0ad01af19b28125e8ac858faa429549e32e932cda44298912ac80121eb9eab337ad0a86a8;
  0x1cb77f4863499640e0838fb62b30174229cd725f73492ecea45ca7768b02817398a96b732afad5f66931c304c31ba1f4836ff8a41afa5e4a7125e3f38b032116f;
  0x1263ceb19371f4e19fcbf002db5858516e450f4e3371755a619168c95b2ff389e8bbfa433b28308913798b9d83490ed4d6c62a0dcb27c5fb008eef503b3076a8e;
  0x1e94e129039525bfb2201267db7b93eacd24c41aa394b5fa583ec5e17b5833ef0d373ac63b50777872443ddb83714de68ecdf6ef0b5017df6a16d3baab58cdedc;
  0x1a1fe74493b347c75adddc31db99c2f537971d8e23b2e8fc3fc972237b7b691ed4070947fb73b86677d4e1d8c39487927fb58312fb7348512c3cdef37b7c0ee78;
  0x1bc2ffbcb3cc5bf376e77e38fbb2dfbd6d3d20a003cc0418e52d433e0b9992ad902f3a247b91eb6b2e42d20583b2b4a25ae7c2e5db916e8d93749b7d0b9a2e49b;
  0x1f5c94c7a3e05f6171e31f213bc6e88b2920c589a3e008dec94cfa6c5bb2aa500fe7fde5abab04d4aafda24c43cbce431195d6948baa85f2ab6793fbdbb340e43;
  0x176e40a933ef5171b5394b0ffbd5e4bc16260c2383ef06ce2325aadb4bc6aa0309e4a63d3bbf0766e13b04cf93dfcdef8cc481598bbe8d1a8d98c1b5abc7440de;
  0x124ccd8a13f932761cd1666d5bdff3dea2fa99aac3f90f02c65e02684bd5887cf7920549bbcdf9e8c08be5d553eea995c97558b77bcd8a01fa10e7d98bd63733a;
  0x1d539f6343fde11be6d14c6a4be546fc44e0ba3943fe628f0d39ba2e4bdf2c9ac6266c50cbd7cb758673b5a993f845f40fae87e67bd7964f69c5a30dcbe01aa0e;
  0x13de31e28bfcfde3621408974be68bb139fc68b683ffad0f371e3d017be25f6c54f9f633ebdc68a6109a7d2d83fb7d0ea9cf1f02abdd09c8cf3a1ba68be4bbb1a;
  0x1ee81ced4bfcf5933c6ce0ffabe407e955125f05f3fd1e2a822f217643e379cd6a08c78a03db7e38bfc0f6843bfc99a9347f506f0bde41a1b271923a63e3d63c3;
  0x1078d3eacbf673cfa0d1f64febdd1d1946af97c923f63523d4e8333f9be24840e8c31895d3db77fd9004577bc3fb63ef11516b275bdbad0818132f6813e3ce918;
  0x1072de9ac3f673cfa0d1f64ffbdd1d1946b1e8a1a3f63523d4e8333f9bdc8d85e095b0a9e3d516b7707f40e923f5af0b62b72568bbd4cf797d40d1f313dd56e56;
  0x1eea173f53fcf5933c6ce0ff9be407e95512e2b6a3fd1e2a822f21764bdc8d85e0a6f4d63bd516b781d370edb3f5af0b62b72568abd4cf798e2391bc6bdd56e56;
  0x13ff2a7953fcfde3621408974be68bb139f7521f43ffad0f371e3d016be24840e8d0b9fa8bdb77fd8ad139d483fb63ef11516b275bdbad08171e99906be3ce918;
  0x1d5c7cb4bbfde11be6d14c6a4be546fc44e0f39383fe628f0d39ba2e43e379cd6a03561abbdb7e38b87e43f6abfc99a9347f506f0bde41a1b984cf466be3d63c3;
  0x1255a2c69bf932761cd1666d5bdff3dea2ea95cb23f90f02c65e02684be25f6c54e034b543dc68a60e625a0ad3fb7d0ea9cf1f02abdd09c8ced8081da3e4bbb1a;
  0x176f7affebef5171b5394b0ffbd5e4bc1622a58ea3ef06ce2325aadb3bdf2c9ac61b29cba3d7cb757271f5d533f845f40fae87e65bd7964f6e99857293e01aa0e;
  0x1f58f9c9ebe05f6171e31f214bc6e88b291b016d13e008dec94cfa6c5bd5887cf791dc0133cdf9e8b231fd4803eea995c97558b77bcd8a01f965611de3d63733a;
  0x1bafaa7c7bcc5bf376e77e38fbb2dfbd6d29ce4ce3cc0418e52d433dfbc6aa0309df0930e3bf0766d97e790083dfcdef8cc481598bbe8d1a8edad4d803c7440de;
  0x1a2a61a95bb347c75adddc31db99c2f537a9044673b2e8fc3fc972237bb2aa500fedc45493ab04d4a36f78d783cbce431195d6948baa85f2a91fc63d73b340e43;
  0x1e98778b2b9525bfb2201267cb7b93eacd18949e8394b5fa583ec5e16b9992ad90223e799391eb6b1c3b588d73b2b4a25ae7c2e5eb916e8d8cb53b32939a2e49b;
  0x1260527dab71f4e19fcbf002db5858516e5349add371755a619168c96b7b691ed42180e7d373b86671f2ba08a39487927fb583130b7348512c1c6dbd337c0ee78;
  0x1cb2b3d9eb499640e0838fb63b30174229c211a493492ecea45ca7767b5833ef0d324172a3507778729c1b3a13714de68ecdf6ef0b5017df6e3d9cd86358cdedc;
  0x1e0889934b1c3977b4819ea83b02aef376573b4cd31bd34a98f100dc1b2ff389e8d238560328308912f1ec9c73490ed4d6c62a0ddb27c5fb0163348e433076a8e;
  0x15297f3fbae9cc3495364ebd0ad03c5761f245e6f2e9570462ec4d28eb028173989711c882fad5f68057497f731ba1f4836ff8a41afa5e4a71da980e73032116f;
  0x1b7d5b6e7ab2416066f4d6786a98b9d2a6c118bb12b1df147b4d5493dad01af19b2b2c4822c858faaa7b19fa62e932cda44298912ac80121e6f7e11a42d0a86a8;
  0x1c6150072a75ab0316e7b755ba5c258638336a6db2753e46a95070f70a988b2d9dea0550a290e1d1f615c31472b1ac8081ebcf194a906720a7e28091e29928623;
  0x192f63c6b275ab03143674061a5c2b514832d4af32753e46a74eb1ea7a5c06893c790d6ef2544018bbca26e482751cacb8af4f2c5a53dd2bfc6aeafa825c89cdd;
  0x1e165626c2b2416064ee1633ba98c28b020e8e87e2b1df1478480595aa5c0bb7ba458f1aba538298f503f81ff2751cacb6e3ccf94a5320271ba3428b0a5c91939;
  0x1d7c0497a2e9cc34924f772b9ad04295bb15100412e9570460c29e81fa9892fa4bd2b135ca9022f5b20eb8f7a2b1ac807f38241eda8fb1bcb70cbdb48a992e3bb;
  0x163b2d6e631c3977b287a28f6b02b774e35a56c1e31bd34a95feb931aad0208735a0125e9ac7a0a64852a98212e932cda2535e516ac7368d7c5295f9fad0b0cae;
  0x1efab27ba3499640ddf3ce5abb301cc5256afd04c3492ecea273e07e0b02890f21896b733afa1bcc9931c334331ba1f480cd53ddfaf9a710728482814b0326cba;
  0x14009b7e6371f4e19ca37032cb585f1d226dfb3b3371755a5f36c2a0eb2ffd65e1a593dcfb276fcdd08cb11233490ed4d51100395b271225f7f2767fcb307e0de;
  0x14b8e129039525bfb045ea91bb7b9be3a2b649ebe394b5fa557bcf3abb583a02eb6a6df97b4fc579aaeee26943714de68cb2ff705b4f52047abd8e5e0b58d70bb;
  0x11a4b41163b347c758ccc667cb99cbdbbaacb035a3b2e8fc3cb426071b7b703f6d7709480b7309f267d4e205439487927d3d74509b728c868fd6d53abb7c14405;
  0x1272ffbcb3cc5bf374b5d8c4cbb2e9355d3090a5b3cc0418e3896d03cb999aa022c5a08afb9128c184a9389d83b2b4a25826f77fab90bab493acc1504b9a34411;
  0x11262e6143e05f616fabf07b2bc6f22f942f5f21a3e008dec7a16fe04bb2b2ba0d87fde5bbaa3b0505fb44cd33cbce430eabad2efba9d6f630b9da968bb347399;
  0x18bfda42d3ef5171b3189b49bbd5ee4d42adced933ef06ce217d75a13bc6b26b8251730a1bbe3e1fdf42d6a123dfcdef89dadec3ebbddf9ab953a3b30bc74a734;
  0x14ec00bd53f932761ae2b976abdffdbc47f0fe3ce3f90f02c4a88e6dfbd5903c0e2ed2169bcd3181ad58b2d543eea995c6c6630f5bccdbdd53d01784dbd63d580;
  0x1d006c3013fde11be3c8b6ff7be54d7065cd8f2993fe628f0afd6a3eebdf32899c3005ea7bd71574e00d4f71e3f845f40da06464fbd6eab8e6bc0933abe02034e;
  0x1de7cb7c1bfcfde35edcfeee0be6938080fe736e13ffad0f3469abacfbe2665bef46c300fbdbb393079b6112b3fb7d0ea76809492bdc41007ce577cffbe4c4737;
  0x1c32d0208bfcf5933943427e3be40d1ec5e3424983fd1e2a806136ffe3e381424cef2df053dacda0ac4eb94ebbfc99a931ea0f013bdd84738b9c194b33e3df841;
  0x1524b3eacbf673cf9e79cd589bdd22b9c488c96b83f63523d2f5336dcbe24ebb71f77efc33dac61aada2488dd3fb63ef0f12e302ebdb0314fe6cded7e3e3d7b2b;
  0x1531450133f673cf9e79cd589bdd22b9c4847a8203f63523d2f5336ddbdc955e678e10a9e3d4509f00de81d223f5af0b5fff5fd05bd417e1aa28552303dd5da9e;
  0x1c2ee40c23fcf5933943427e3be40d1ec5db65e193fd1e2a806136ffebdc955e677a28097bd4509f06da154723f5af0b5fff5fd05bd417e1ac3b67be6bdd5da9e;
  0x1dd25dac93fcfde35edcfeee0be6938080e4737d03ffad0f3469abacebe24ebb71f720611bdac61a9c08da5eb3fb63ef0f12e302dbdb0314ffcd7da04be3d7b2b;
  0x1cfcafe7ebfde11be3c8b6ff8be54d7065c7731273fe628f0afd6a3ef3e381424cf6894dbbdacda0ca96225a8bfc99a931ea0f014bdd84738f361ba8bbe3df841;
  0x14e97ac69bf932761ae2b976abdffdbc47ef85d2d3f90f02c4a88e6e0be2665bef45018213dbb393085e4da6d3fb7d0ea76809491bdc41007e04b97be3e4c4737;
  0x18be73997bef5171b3189b49abd5ee4d4294988233ef06ce217d75a14bdf32899c3349cba3d71574ccd1f5d4e3f845f40da064650bd6eab8fa73153323e02034e;
  0x11122c905be05f616fabf07b3bc6f22f9449bc16a3e008dec7a16fe04bd5903c0e23473473cd3181c0d2ca14d3eea995c6c6630f5bccdbdd6ab95c4fd3d63d580;
  0x12823480dbcc5bf374b5d8c4cbb2e9355d3310acb3cc0418e3896d03cbc6b26b82355cfdb3be3e1fe496053443dfcdef89dadec3fbbddf9ad1592bc423c74a734;
  0x119e125d1bb347c758ccc667cb99cbdbbaa1270e93b2e8fc3cb426072bb2b2ba0d8376f963aa3b0504ec4ce233cbce430eabad2f0ba9d6f613f2b433f3b347399;
  0x14baf8402b9525bfb045ea91cb7b9be3a2b42ca2c394b5fa557bcf3abb999aa022c83745a39128c18126f320b3b2b4a25826f77fab90bab494422bc4e39a34411;
  0x13f79484cb71f4e19ca37032db585f1d226728f3b371755a5f36c2a0eb7b703f6d8424b6737309f26ff3ab92a39487927d3d74509b728c867d033690037c14405;
  0x1ee59b7d1b499640ddf3ce5abb301cc525693bdad3492ecea273e07dfb583a02eb707acbc34fc579a43aeaea83714de68cb2ff705b4f520481a4ac271358d70bb;
  0x163085bf2b1c3977b287a28f5b02b774e35676bd131bd34a95feb931bb2ffd65e1baf00623276fcdcf18b2f8f3490ed4d51100395b271226104624dd43307e0de;
  0x1d797ee13ae9cc34924f772baad04295bb0baeb762e9570460c29e81eb02890f21864ff052fa1bcc90522edd731ba1f480cd53ddfaf9a71072af21ad630326cba;
  0x1e188e9d6ab2416064ee1633ba98c28b02150794e2b1df1478480595aad0208735a4987fa2c7a0a644f5b63f32e932cda2535e516ac7368d75262e3232d0b0cae;
  0x191ae9a06a75ab03143674061a5c2b51483feeac52753e46a74eb1ea7a9892fa4bda2c6ac29022f5afaf5717c2b1ac807f38241eea8fb1bcafae23fc82992e3bb;
  0x17bf63c6b275ab03117b12227a5c2e3a66a94b8622753e46a54567f6ba5c0bb7ba430ee272538298f4611a5572751cacb6e3ccf94a5320270d1b3ebe625c91939;
  0x1ed7efc052b2416062dfb8384a98c6ec9653b21172b1df1475375c210a5c0e522ea58f1aca52028f2a07f0c2a2751cacb5118bb8da51816fe65c30075a5c957b4;
  0x11c26afe12e9cc348f5db7a5dad045b8c58a6b3f22e957045e90ceda8a9896e5777f7e02aa8e85317b6e17d6a2b1ac807c7a51865a8e2216867840281a99312c1;
  0x12e993d4d31c3977b08638bb4b02bbbade65bb0c931bd34a93015e95ead023557849abf83ac616a8970bb9f782e932cda05cdec49ac59f668ddb93782ad0b5005;
  0x148ab27ba3499640db5a6c5b2b301f8a0d260344a3492ecea083ec76bb028ce19c2c9ea68af87b9d3193da5da31ba1f47e20c7760af81af30e1477728b0329a98;
  0x1243ceb19371f4e1996f11a90b58628731de49da3371755a5cd3436dab30012cfcb2c9ee8b25ebfb8232c541a3490ed4d3556b536b256eb52feb2f95bb3081c50;
  0x1778e129039525bfae64cca15b7b9fe4fd72ce971394b5fa52ae7778fb583d109e273ac65b4e2f49c910f89f13714de68a901e3ffb4dc4236c998a503b58dba05;
  0x1f6fe74493b347c756b3ec0fdb99d0547f8580a053b2e8fc3993435c9b7b73d4243709481b7163bb9f5388c8d39487927abc1dfb6b710932cbba1e14ab7c16f00;
  0x19d632eff3cc5bf3727bf4616bb2edf7322a661483cc0418e1df6cd71b999e9e584f3a24ab8f8cf2390b49a543b2b4a2555bd3255b8f2815e9854a5b3b9a37406;
  0x1ff2fb2e13e05f616d6c6e176bc6f707c25fea8983e008dec5ef9e6cfbb2b6f44221977f6ba8a5603e537a7043cbce430bb68f5b0ba83afbe65787e31bb34a682;
  0x172640a943ef5171b0efec525bd5f31bc5a41a0173ef06ce1fcf06072bc6b6a4f367d9709bbca98756a4f4f553dfcdef86e649ba8bbc40c3341b07a7bbc74da9d;
  0x1aa4cd8a23f9327618ecc945ebe001589b4c0faad3f90f02c2ecae4b9bd5942065820549ebcb98a7022f98f083eea995c40d577b5bcb3e4338689af8dbd6406e0;
  0x1146d29683fde11be0b4bacf6be550ae7561267b53fe628f08b8b34a0bdf3584b3f66c50ebd5732159ced81e23f845f40b8a8768abd54832f5d054eabbe023025;
  0x11eafeaf4bfcfde35b99dfe6dbe6976cfa90b0ee13ffad0f31aaef586be269d8082d2967abda2350f59d293023fb7d0ea4f7ebc7ebdaad613c123e67ebe4c8d9d;
  0x1a363686ebfcf593360dc10d8be40fbcb814477b43fd1e2a7e8c847003e385015c7bfabd03d934bd0bd0a4c0cbfc99a92f4b18434bdc03ccca86dd52a3e3e42dd;
  0x188246513bf673cf9c18d4b14bdd258d7f8f90e723f63523d0fae021ebe251fcb9bc4bc903d92fb55baaf77b63fb63ef0ccbeb811bd95a8da479da1123e3dc48f;
  0x1881450133f673cf9c18d4b14bdd258d7f8e747aa3f63523d0fae021ebdc994f86df4d76b3d2c244f686d41483f5af0b5d3d632d3bd2765fe2293d1d53dd61105;
  0x1a387da5c3fcf593360dc10d8be40fbcb8164d3793fd1e2a7e8c84700bdc994f86ea28099bd2c244db685600e3f5af0b5d3d632d3bd2765fd0cd785cabdd61105;
  0x11e590dfd3fcfde35b99dfe6cbe6976cfa97498d03ffad0f31aaef587be251fcb9a3ed2e0bd92fb551ab4ef753fb63ef0ccbeb811bd95a8d6eb26c2bdbe3dc48f;
  0x11357cb4bbfde11be0b4bacf7be550ae7571884a63fe628f08b8b34a03e385015c69bc80bbd934bd485f79944bfc99a92f4b18435bdc03ccd0a70cab4be3e42dd;
  0x1aa4492cfbf9327618ecc945ebe001589b531839e3f90f02c2ecae4b9be269d8083834b553da23511189680973fb7d0ea4f7ebc7ebdaad610f2ebaf063e4c8d9d;
  0x1724e57febef5171b0efec526bd5f31bc5a3464a63ef06ce1fcf06073bdf3584b3f2f69873d573214294a41f03f845f40b8a8768abd54832ee82821d03e023025;
  0x1ff4dee6bbe05f616d6c6e175bc6f707c277d49513e008dec5ef9e6cfbd59420659b4e0133cb98a6bafff51fd3eea995c40d577b5bcb3e4351eb791853d6406e0;
  0x19d49f97abcc5bf3727bf4616bb2edf7323884f553cc0418e1df6cd72bc6b6a4f35c304a83bca9874b64619db3dfcdef86e649ba8bbc40c35d1e68acf3c74da9d;
  0x1f6f0c8d0bb347c756b3ec0feb99d0547f81c207c3b2e8fc3993435cabb2b6f4422fdb1f03a8a5602097052273cbce430bb68f5afba83afbe126275e43b34a682;
  0x1770efabeb9525bfae64cca16b7b9fe4fd6c9c1bd394b5fa52ae7778fb999e9e584db89f638f8cf2347ccc82b3b2b4a2555bd3254b8f2815df7c4543039a37406;
  0x12552d932b71f4e1996f11a91b58628731de1a036371755a5cd3436d9b7b73d42447b891837163bbb4f642c4039487927abc1dfb7b710932c5da5a5d137c16f00;
  0x14754f1b6b499640db5a6c5b2b301f8a0d24564013492ecea083ec76bb583d109e1d1524534e2f49ccb8a77cf3714de68a901e3feb4dc42380ee599e5358dba05;
  0x12e6e846db1c3977b08638bb3b02bbbade51532d831bd34a93015e95db30012cfcb48e0ed325ebfb7acb6ebb13490ed4d3556b537b256eb53c4fef89933081c50;
  0x11afe4e82ae9cc348f5db7a5ead045b8c58c68dc82e957045e90ceda8b028ce19c1996ec52f87b9d4e00e51a631ba1f47e20c775faf81af2f7aa149e730329a98;
  0x1eda28328ab2416062dfb8384a98c6ec9658dd9e52b1df1475375c210ad0235578528db112c616a89050d4c052e932cda05cdec48ac59f6683242ab312d0b5005;
  0x17bae99ffa75ab03117b12227a5c2e3a66b58cff92753e46a54567f6aa9896e57784cedd028e853171f078fb62b1ac807c7a51864a8e22169441b630d299312c1;
  0x17cf63c6b275ab030ebc4df00a5c2e3a66b8826c22753e46a339984dca5c0e522ea274ade252028f28c23428c2751cacb5118bb8da51816ffd0eb70f625c957b4;
  0x1ee98959f2b2416060cece3d8a98c6ec96643e0a22b1df147222e6bbaa5c0e522ea58f1ad2520290f5f80eba72751cacb33d08eea2518172f329af635a5c957b4;
  0x11bc0497b2e9cc348c68527a2ad045b8c5910e9e62e957045c5c474c7a9896e5778c4acf928e8533d15eb43112b1ac8079b91999728e221858127d7a9a99312c1;
  0x12eb2d6e731c3977ae8252f36b02bbbade6758ef031bd34a90004ff3cad023557850125eb2c616aa8f5aabe1d2e932cd9e63f0c932c59f68e4126f9e1ad0b5005;
  0x147ab27ba3499640d8bdd22a3b301f8a0d21208433492ece9e91921c4b028ce19c296b7362f87ba01b38f1aef31ba1f47b70eb1f42f81af4d8468179fb0329a98;
  0x12509b7e6371f4e19636baf3ab58628731d1dec7e371755a5a6ccec84b30012cfca2c9ee9325ebfefdcd39c553490ed4d197b0f963256eb76a237cdcab3081c50;
  0x177e7ac2a39525bfac815abe9b7b9fe4fd7b5bf64394b5fa4fdda7295b583d109e226df9934e2f4bea2239fa93714de6886a97a7a34dc426404c2bfe1b58dba05;
  0x1f6cb41163b347c7549878bb8b99d0547f92cf1773b2e8fc366e80a8cb7b73d42443d614f37163bead79434fe39487927837ad3dc3710934c82238f7db7c16f00;
  0x19e2ffbcc3cc5bf3703f4e14dbb2edf7324bc17ad3cc0418e0335cfd6b999e9e5855a08b238f8cf4ed5b1bf833b2b4a2528d38f6f38f2817bda97756db9a37406;
  0x100afb2e13e05f616b2a22d53bc6f707c2784e7b43e008dec43bb39d8bb2b6f44247fde5e3a8a562e812eb20d3cbce4308bdc7b4e3a83afdc0b4bbf0fbb34a682;
  0x173640a943ef5171aec490c2bbd5f31bc5b893b153ef06ce1e1e81418bc6b6a4f377d970a3bca98a695b0a3343dfcdef83ee0b8873bc40c5602fc84d1bc74da9e;
  0x1aa8cd8a23f9327616f46b583be001589b52a67d63f90f02c12ea857fbd5942065b2054a03cb98a9bdd0664093eea995c150ec7dd3cb3e453ba839f13bd6406e0;
  0x113ed29683fde11bdd9cee909be550ae7570241ee3fe628f06712d040bdf3584b3f66c5103d57323e6312724b3f845f409721523f3d54834f1b5f1f1bbe023025;
  0x121afeaf3bfcfde35852b66dbbe6976cfaaed51613ffad0f2ee8cc8e2be269d8082d2967f3da2352ca62d62b63fb7d0ea284c932f3daad631ea5036cdbe4c8d9d;
  0x1a52d0208bfcf59332d44608ebe40fbcb824cb9c43fd1e2a7cb58d4fc3e385015c8bfabcebd934bfb42f5c4f6bfc99a92ca8e26a33dc03ce1d18b7cdb3e3e42dd;
  0x1885df1dfbf673cf99b4e9b8bbdd258d7f8bbfc7f3f63523cefe19a9ebe251fcb9bb7efc3bd92fb750bb6ef1b3fb63ef0a8221e423d95a8f4cc575da73e3dc48f;
  0x1881450133f673cf99b4e9b8bbdd258d7f8d3926f3f63523cefe19a9ebdc994f86ded7104bd2c2484b9f9252a3f5af0b5a77fc0d03d2766230d213d893dd61105;
  0x1a3bb0d8f3fcf59332d44608dbe40fbcb81f8e4a23fd1e2a7cb58d4fbbdc994f86ea2809a3d2c2486497a91a73f5af0b5a77fc0d03d2766275c4452fbbdd61105;
  0x11f8c41313fcfde35852b66dbbe6976cfaad4e1dc3ffad0f2ee8cc8e0be251fcb99d86c7c3d92fb73b217d3513fb63ef0a8221e413d95a8ef547dad0bbe3dc48f;
  0x113b49817bfde11bdd9cee90abe550ae756df899d3fe628f06712d0403e385015c7cefb3c3d934c0846d518c1bfc99a92ca8e26a33dc03ce19f771247be3e42dd;
  0x1aa83c602bf9327616f46b583be001589b5d100d83f90f02c12ea857fbe269d8082367e89bda235309a9cb3ac3fb7d0ea284c93303daad634d24f2a363e4c8d9d;
  0x1738beffebef5171aec490c2bbd5f31bc5ae950613ef06ce1e1e81418bdf3584b3fc5cfedbd57323d304f57be3f845f409721523e3d54834defe6a8dd3e023025;
  0x1ffcd47d1be05f616b2a22d52bc6f707c2933d20d3e008dec43bb39dabd5942065a6ac013bcb98a9b0780ae043eea995c150ec7dc3cb3e453bed3d09d3d6406e0;
  0x19e1b0d0abcc5bf3703f4e14dbb2edf7324579d0f3cc0418e0335cfd5bc6b6a4f38998d75bbca98a1f7dd19583dfcdef83ee0b8873bc40c56e75b7eff3c74da9d;
  0x1f68b3943bb347c7549878bb8b99d0547f8a91ae33b2e8fc366e80a8bbb2b6f442536e8f0ba8a562ef0d1add93cbce4308bdc7b4e3a83afdd1c236fb93b34a682;
  0x177c72c27b9525bfac815abe9b7b9fe4fd713f88f394b5fa4fdda7295b999e9e5854eca6db8f8cf4ed5db6ca23b2b4a2528d38f7038f2817be5f539cc39a37406;
  0x124c5eabdb71f4e19636baf39b58628731ddd345b371755a5a6ccec86b7b73d4242d01004b7163bea2f94434039487927837ad3db3710934b871d7fa037c16f00;
  0x146502a48b499640d8bdd22a3b301f8a0d13cf3863492ece9e91921c3b583d109e22b9471b4e2f4bf56f163773714de6886a97a7a34dc426408aef523358dba05;
  0x12e87e00ab1c3977ae8252f35b02bbbade53bd49931bd34a90004ff3db30012cfca56a00cb25ebff06cc5fdd93490ed4d197b0f963256eb7712ad97de33081c50;
  0x11b97e222ae9cc348c68527a2ad045b8c58cb00e42e957045c5c474c7b028ce19c11345ccaf87b9ffee09099c31ba1f47b70eb1f32f81af4ec904de0830329a98;
  0x1eebc1c7cab2416060cece3d8a98c6ec966a5a7b12b1df147222e6bbaad02355784e4d589ac616aa7616901162e932cd9e63f0c942c59f68fb6022d792d0b5005;
  0x17cae99f9a75ab030ebc4df00a5c2e3a66bc4d2aa2753e46a339984dca9896e5778cef1e6a8e8533dadc6a6e92b1ac8079b91999728e221847c6a674c299312c1;
  0x192763c6b275ab030c00ec0c6a5c2b514835f14092753e46a1304e5a0a5c0e522eb16d25aa520290f73dcc5972751cacb33d08eea2518172c99b0d31325c957b4;
  0x1e0fefc062b241605ec070422a98c28b0208dd9ac2b1df146f123d473a5c0bb7ba3d8f1ae2538299eafc071c52751cacb16ac7ae42532027e036a5ab3a5c91939;
  0x1d640497b2e9cc34897692f48ad04295bb0789fbe2e957045a2a77a52a9892fa4bdf7e02d29022f6a12479a842b1ac8076fb4701028fb1be1089d2f67a992e3bb;
  0x1627fa3b431c3977ac80e91f4b02b774e34ddcd6631bd34a8d02f557fad020873598125ec2c7a0a757ad55ab02e932cd9c6d713c72c7368e2b0ac9b17ad0b0cae;
  0x1f0918e213499640d624702abb301cc525790f9733492ece9ca19e14fb02890f217fd1d9e2fa1bcd7067d5d5b31ba1f478c45eb752f9a711a8c8b6b24b0326cba;
  0x13e09b7e6371f4e193025c69db585f1d225de6087371755a58094f94fb2ffd65e1c8c71073276fceac401b0063490ed4cfdc1c13732712269a9f70504b307e0de;
  0x14b8e129039525bfaaa03cce3b7b9be3a2b900d29394b5fa4d104f678b583a02eb626df9a34fc57b15111cb123714de68647b677434f52054ab409ff2b58d70bb;
  0x11a180de33b347c7527f9e63ab99cbdbbaa59ebb93b2e8fc334d9dfe4b7b703f6d870948437309f3182b1d742394879275b656e893728c8791dff6770b7c14405;
  0x125e32eff3cc5bf36e0569b18bb2e9355d1c0db7b3cc0418de895cd0cb999aa022cc06f1a39128c254f06065d3b2b4a24fc2149ca390bab5c06a8b34ab9a34411;
  0x112494c7b3e05f6168eaa0717bc6f22f94336bf903e008dec289e22a4bb2b2ba0d71977f93aa3b05e06b20f9c3cbce4305c8a9e0e3a9d6f76a9f61e70bb347399;
  0x18aca70fb3ef5171ac9be1cb7bd5ee4d42864ea6d3ef06ce1c7011a76bc6b26b8244a63d93be3e20ad89f58aa3dfcdef80f9767f33bddf9bcbf0918e5bc74a734;
  0x14ee6723c3f9327614fe7b277bdffdbc47ee047723f90f02bf72c8359bd5903c0e15387d43cd31829c40e629a3eea995be97e0e9d3ccdbde90dad558abd63d580;
  0x1d086c3023fde11bda88f2608be54d7065cc80b0e3fe628f042c760f0bdf32899c33391de3d715758cbf7ccd83f845f4075c3827b3d6eaba1d3ba84babe02034e;
  0x1df165159bfcfde3550f97663be693808109c97703ffad0f2c2a1039abe2665bef86c301d3dbb39418649df753fb7d0ea014abb173dc410129d87e155be4c4737;
  0x1c2e0353bbfcf5932f9ec4984be40d1ec5dc3e7593fd1e2a7ae0dabfc3e381424cb594565bdacda286e47b7b7bfc99a92a09ebac33dd847469468556f3e3df841;
  0x1533d1846bf673cf9753f1115bdd22b9c4826f2453f63523cd03c65e0be24ebb71fde562abdac61bdec41de293fb63ef083b2a6253db031595c2e664c3e3d7b2b;
  0x1539450143f673cf9753f1115bdd22b9c486419c43f63523cd03c65e0bdc955e678f93dd1bd4509fd5a4b161a3f5af0b57b5ff69f3d417e25e0009d6e3dd5da9e;
  0x1c2bb0d903fcf5932f9ec4983be40d1ec5dc4c0363fd1e2a7ae0dabfcbdc955e678a2809c3d4509fd925ea0df3f5af0b57b5ff69f3d417e26165ca1bdbdd5da9e;
  0x1dd8c41323fcfde3550f97665be69380810bc9a603ffad0f2c2a1039abe24ebb71fd86c7e3dac61bdd90be4b03fb63ef083b2a6263db03158effaa478be3d7b2b;
  0x1d0a7cb4bbfde11bda88f2608be54d7065d8ca0903fe628f042c760f13e381424cdcefb393dacda28236a7f1abfc99a92a09ebac43dd847441ac5826fbe3df841;
  0x14ef72c69bf9327614fe7b277bdffdbc47e7ffdd43f90f02bf72c8358be2665bef9034b56bdbb394553b4c0c33fb7d0ea014abb153dc41012d875320c3e4c4737;
  0x18b051664bef5171ac9be1cb6bd5ee4d4291fa5143ef06ce1c7011a77bdf32899c3a29cbabd7157595ce0a2c23f845f4075c3827a3d6eaba1b94dce233e02034e;
  0x11266e29ebe05f6168eaa0717bc6f22f9446272c73e008dec289e22a3bd5903c0e2470ce0bcd31828caecf84e3eea995be97e0e9d3ccdbde83178fa7f3d63d580;
  0x1262b881abcc5bf36e0569b17bb2e9355d1902dff3cc0418de895cd0cbc6b26b824068b0ebbe3e20ab128dff03dfcdef80f9767f33bddf9bc902cc78d3c74a734;
  0x11a1a0490bb347c7527f9e63ab99cbdbbaad325c43b2e8fc334d9dfe4bb2b2ba0d69a9e70baa3b05dfb904b763cbce4305c8a9e0e3a9d6f7597fb0d213b347399;
  0x14bd3033fb9525bfaaa03cce3b7b9be3a2a79634a394b5fa4d104f678b999aa022c0af718b9128c25a1bd1b8f3b2b4a24fc2149c9390bab5bbb16c99239a34411;
  0x13e6cf3beb71f4e193025c69db585f1d22516b443371755a58094f94eb7b703f6d758b9c2b7309f317c1b992a394879275b656e893728c8793c5b1b5537c14405;
  0x1ef31d3b4b499640d624702abb301cc5257164f133492ece9ca19e14fb583a02eb6207ac5b4fc57b0221755ca3714de68647b677434f52054b58132c7358d70bb;
  0x162546f62b1c3977ac80e91f3b02b774e334fc22431bd34a8d02f5580b2ffd65e1c998e67b276fceaee4f96bc3490ed4cfdc1c137327122694d8655ac3307e0de;
  0x1d617dc35ae9cc34897692f49ad04295bb03838fe2e957045a2a77a52b02890f21676b63eafa1bcd7956dcadd31ba1f478c45eb742f9a7119f49b36d530326cba;
  0x1e1a2829eab241605ec070422a98c28b020e4661e2b1df146f123d473ad0208735a2c3d38ac7a0a74b0bc62822e932cd9c6d713c82c7368e25be0689c2d0b0cae;
  0x1922e99f3a75ab030c00ec0c6a5c2b514836445de2753e46a1304e5a0a9892fa4bdf2f6fea9022f69383ed0362b1ac8076fb4701028fb1be0ea8ca27d2992e3bb;
  0x1c68fd605275ab03094fa8bcca5c25863824ef3652753e469f2e8f4d6a5c0bb7ba43c1458a538299eb9ee66d42751cacb16ac7ae42532027d51d2975225c91939;
  0x1b87efc062b241605cb9affd7a98b9d2a6c8968472b1df146c0cee48ea5c06893c73f581525440193f179d07f2751cacaf9f457b3253dd2cbc395dd1ea5c89cdd;
  0x1548d16482e9cc34868fbb631ad03c5762086c87b2e957045800c8fe2a988b2d9def7e02e290e1d29124797842b1ac8074479c06929067211b1ef8349a9928623;
  0x1e0993d4d31c3977aa86ed066b02aef376653901631bd34a8a10adad8ad01af19b3b459202c858fb10a3777ff2e932cd9a7e36fcb2c8012234ee5cdccad0a86a8;
  0x1ccf7f4873499640d394aecf2b30174229d5862743492ece9ab8d71c7b02817398ac9ea6c2fad5f7239b08da231ba1f47621b9f132fa5e4ae4d193dd9b032116f;
  0x125701e4d371f4e18fd9dc99bb5858516e40f438d371755a55aea96c7b2ff389e8dbfa43c32830896c8673c853490ed4ce26f23ef327c5fb7a015abceb3076a8e;
  0x1e9e7ac2a39525bfa8c614f82b7b93eacd2890154394b5fa4a4d58c0eb5833ef0d34079353507778f0eef499a3714de6842cbef8735017dfc8a5e4a4eb58cdedc;
  0x1a2180de33b347c7506e88999b99c2f5379bec7d33b2e8fc303851e20b7b691ed423d6152373b866db5e507b83948792733e48263373485173e5ce9e5b7c0ee78;
  0x1bc632eff3cc5bf36bd3c43d4bb2dfbd6d50f7c4c3cc0418dce586968b9992ad902c06f1b391eb6ba4f06034f3b2b4a24d01493663916e8dec016f0f6b9a2e49b;
  0x1f5e2e6153e05f6166b371cb6bc6e88b292a5dbf93e008dec0de579e3bb2aa500ff1977fb3ab04d4f8359062e3cbce4302de807b43aa85f31cb3a816bbb340e43;
  0x178173dc73ef5171aa7b32052bd5e4bc1634545c73ef06ce1ac7dc6d8bc6aa0309f1730a73bf0767285e9444b3dfcdef7e0fd3e993be8d1aec01c443fbc7440de;
  0x12599a56f3f93276130fce30cbdff3dea2f8461e93f90f02bdbd543b5bd5887cf79b9ee3c3cdf9e965da7f90e3eea995bbe8eb41b3cd8a0281bef1713bd63733a;
  0x1d4205c9c3fde11bd7805cf5dbe546fc44e06046c3fe628f01f0261fbbdf2c9ac61cd2b793d7cb761325e305d3f845f4054e14a623d7964fd2720f0a1be01aa0e;
  0x141afeaf2bfcfde351d88dbd2be68bb139fd5ddd83ffad0f29757ee51be25f6c54e05c9bb3dc68a685cbe86d43fb7d0e9dad95f853dd09c903ac85bbbbe4bbb1a;
  0x1ef68353bbfcf5932c752616cbe407e9550d02bb93fd1e2a7912f04963e379cd69cbfabcabdb7e39bd0bd7998bfc99a92774aa3e93de41a1f2eafe4e83e3d63c3;
  0x1087e2513bf673cf94fbc81a0bdd1d1946b994abf3f63523cb10c68c3be24840e8d7e562abdb77fe09620ef2f3fb63ef05fca23de3dbad088867de67e3e3ce918;
  0x108ade9ad3f673cf94fbc81a0bdd1d1946be375b93f63523cb10c68c4bdc8d85e0b19d76bbd516b7dd77257db3f5af0b54fe39d183d4cf79fa15ffa463dd56e56;
  0x1edee40c33fcf5932c752616cbe407e95519396613fd1e2a7912f0496bdc8d85e0b6f4d6a3d516b7d62c8e84c3f5af0b54fe39d183d4cf7a0c1e202bebdd56e56;
  0x14325dacc3fcfde351d88dbd1be68bb13a0b996763ffad0f29757ee51be24840e8d72061a3db77fe11fb9231a3fb63ef05fca23de3dbad0883187bf0ebe3ce918;
  0x1d597cb4bbfde11bd7805cf5dbe546fc44e1eb1a83fe628f01f0261fb3e379cd69f6894cf3db7e397ab4ed2a3bfc99a92774aa3ea3de41a200f655c70be3d63c3;
  0x12579f936bf93276130fce30bbdff3dea30cebc573f90f02bdbd543b5be25f6c54d834b56bdc68a67e9da60a43fb7d0e9dad95f853dd09c8ff02f330f3e4bbb1a;
  0x177e614cabef5171aa7b32052bd5e4bc163e0518c3ef06ce1ac7dc6d8bdf2c9ac62543654bd7cb761047a3c603f845f4054e14a623d7964fcfdd28f7b3e01aa0e;
  0x1f64a3138be05f6166b371cb6bc6e88b292a193af3e008dec0de579e3bd5887cf7b2d79adbcdf9e969ef9c51b3eea995bbe8eb41a3cd8a027930982a43d63733a;
  0x1bc97ebadbcc5bf36bd3c43d4bb2dfbd6d49817a53cc0418dce586968bc6aa0309e659a41bbf07671ebb509913dfcdef7e0fd3e993be8d1aec5ffc9143c7440de;
  0x1a2526603bb347c7506e88999b99c2f5379c6c0fa3b2e8fc303851e20bb2aa500ff9f8456bab04d4f8adb18ee3cbce4302de807b53aa85f31c60c6cd03b340e43;
  0x1ea208d58b9525bfa8c614f82b7b93eacd2574760394b5fa4a4d58c0eb9992ad902df8fd5b91eb6baabe5d65c3b2b4a24d01493663916e8debb0e95c839a2e49b;
  0x1267c02c0b71f4e18fd9dc99cb5858516e3c16cce371755a55aea96c6b7b691ed41f5ba6db73b866dbf6375033948792733e4826237348516df957ea337c0ee78;
  0x1cb939342b499640d394aecf2b30174229d0322c03492ece9ab8d71c7b5833ef0d37b1e08b507778f31ac520e3714de6842cbef8935017dfc68f0e722358cdedc;
  0x1e06dcca5b1c3977aa86ed065b02aef3765c22c0d31bd34a8a10adad9b2ff389e8da40932b2830896e0a815663490ed4ce26f23f0327c5fb7bc6bee8633076a8e;
  0x15464a331ae9cc34868fbb631ad03c5762045b8492e957045800c8fe1b0281739890798b1afad5f72c8f16e2d31ba1f47621b9f132fa5e4ae035c2abe3032116f;
  0x1b8a28259ab241605cb9affd6a98b9d2a6d7efa0c2b1df146c0cee48ead01af19b3f226b1ac858fb0a52edc9f2e932cd9a7e36fcb2c80122324f0a79d2d0a86a8;
  0x1c6483387a75ab03094fa8bcca5c258638336e8472753e469f2e8f4d6a988b2d9df8016f4a90e1d29383f28422b1ac8074479c06829067211638e5bfd29928623;
  0x1b4296f9f275ab0306af2753ca5c1ce77f119e0512753e469d394dc1da5c06893c739827ba54401937690ceff2751cacaf9f457b3253dd2cc8e4f5b6725c89cdd;
  0x1314bc8d32b241605abf8c5fda98acd90418c602a2b1df14691a6c48aa5bfda6f764b7cf9254bbd010b1368292751cacaddeef3732544acc6afd7a530a5c7e3d3;
  0x1fc59e3152e9cc3483baf330fad0330d1ecb5ab182e9570455e49066ca987f92a835e46962914e05655f0971a2b1ac8071a4c1eab290f1edeaff4e9a1a991fae0;
  0x1b9660a1a31c3977a8993e1feb02a24b8fc7fed2631bd34a8730bc928ad012a26d7678c542c8de4fed70442b62e932cd989b06fba2c8648362fa40e81ad09bf3b;
  0x18dde5aee3499640d114dece0b300f0eb0e7afcc23492ece98dbf23d2b027621c2f3050d32fb45cd169a5123231ba1f4738f7c1492fae5ad4da3086aeb0318999;
  0x17809b7e7371f4e18cc504cd9b584e34d682bc51d371755a5362aa174b2fe4de5d3f2d771328a63cbaecda1143490ed4cc7c694693283ab888e4ea09fb306ba83;
  0x13d67ac2a39525bfa6f7743a8b7b880e2423d958e394b5fa479b922b6b582ae3ff4a6df9c351044b5544470773714de6821ee1f2f350840ae2207e86ab58c05cf;
  0x1e464dab03b347c74e6a4fc80b99b5b6e790b90853b2e8fc2d363646cb7b5e83ea73d6153374314e75af28287394879270d597407373c735cc5fa1724b7c06f2e;
  0x1347cc8993cc5bf369afc66a0bb2d1a6bacdc6dcb3cc0418db4be561ab9986da38426d58339254acd744fccf83b2b4a24a51a0618391fc397379122a8b9a25691;
  0x1f7494c7b3e05f61648a0d3aabc6da3246f0d2f7f3e008debf3d320b0bb29dcb083e644c93ab69a421cf29e343cbce4300067b1e53ab0e54acbf76a67bb33777c;
  0x18030d7613ef5171a867c0519bd5d67fd6abaed9a3ef06ce1929f76d5bc69d804524a63db3bf6d349ec4fa91a3dfcdef7b38521543bf134aa12f24986bc73a89a;
  0x1370cd8a23f93276112d28095bdfe5309a70bba3c3f90f02bc1282eaabd57cf63b386bb0a3ce5eb89486d94993eea995b94aa92a33ce11252e6bf9993bd62e100;
  0x19486c3023fde11bd48aa8eb7be53d61fbecc61783fe628effc1c0338bdf23c6d2166c5143d83e84e4c6249fc3f845f4034cbbc693d819ac7fbc85b9ebe012541;
  0x16b49848cbfcfde34eb586943be6801266c8949fc3ffad0f26d1c4089be2551a52c6c30263dcf409dc324eacc3fb7d0e9b55747853dd70824a134fd3abe4aea9f;
  0x14880353bbfcf593295f3691cbe400293d3de5c8b3fd1e2a775040bda3e36eb515a26122fbdc08f96b52b8b9cbfc99a924ef7c66c3debdf0d61bd21853e3c86cf;
  0x19cf60b79bf673cf92b236780bdd14b9e57e2f0d23f63523c929e872abe23e9d1705e562abdc04a7a7f1077a43fb63ef03cc11ecf3dc296cd91c911a33e3c0fbf;
  0x19c1450143f673cf92b236780bdd14b9e5742486f3f63523c929e872bbdc81d94a182a437bd582709b1d8be433f5af0b52575ea293d5414d9a28145c33dd4cd37;
  0x14987da5d3fcf593295f3691cbe400293d3f4848b3fd1e2a775040bdbbdc81d94a1a2809f3d582709c92f4d023f5af0b52575ea293d5414d8f70f3170bdd4cd37;
  0x169f2a79a3fcfde34eb586942be6801266c55dbe63ffad0f26d1c408abe23e9d1723ed2e93dc04a7a5ca95d2a3fb63ef03cc11ed03dc296cded7a6ce2be3c0fbf;
  0x1954164e4bfde11bd48aa8eb7be53d61fbfcce82c3fe628effc1c03383e36eb51583561993dc08f973c0dcc8dbfc99a924ef7c66b3debdf0c51e1bba9be3c86cf;
  0x137bf12cfbf93276112d28095bdfe5309a75b98713f90f02bc1282ea9be2551a52c69b1bdbdcf409e4373fa7e3fb7d0e9b55747853dd708249960307d3e4aea9f;
  0x17f89f331bef5171a867c0519bd5d67fd6b49db963ef06ce1929f76d4bdf23c6d21e16987bd83e84e53d6b7cc3f845f4034cbbc693d819ac77f753f183e012541;
  0x1f73f1ed1be05f61648a0d3a9bc6da324702295993e008debf3d320afbd57cf63b3f2667abce5eb89379348f43eea995b94aa92a33ce11253824ebdfb3d62e100;
  0x1333cc37abcc5bf369afc66a0bb2d1a6bac7931b23cc0418db4be561abc69d80453dfe575bbf6d34a9dc1a32b3dfcdef7b38521543bf134aa38546bac3c73a89a;
  0x1e44d9fe5bb347c74e6a4fc7fb99b5b6e7784b15d3b2e8fc2d363646dbb29dcb083f67170bab69a42724b45bb3cbce4300067b1e53ab0e54a6d7d8cfb3b33777c;
  0x13d2a80d4b9525bfa6f7743a7b7b880e2427526f7394b5fa479b922b5b9986da38442ee64b9254acdae76fdc73b2b4a24a51a0617391fc396e718fd8039a25691;
  0x177c0bbe5b71f4e18cc504cd9b584e34d69b2eda5371755a5362aa174b7b5e83ea72185c9b74314e6d90f6708394879270d597406373c735cf65319b437c06f2e;
  0x18d75746bb499640d114dece0b300f0eb0e24b6163492ece98dbf23d3b582ae3ff461d5acb51044b541edc67f3714de6821ee1f2e350840ae729bad06358c05cf;
  0x1b8ba5ecfb1c3977a8993e1fdb02a24b8fb43b7f931bd34a8730bc929b2fe4de5d469baafb28a63cbca11f88d3490ed4cc7c6946a3283ab891d2968913306ba83;
  0x1fc316a57ae9cc3483baf330fad0330d1ec8c6aaa2e9570455e49066bb027621c2f10912eafb45cd1b16c996931ba1f4738f7c1482fae5ad52cfef77f30318999;
  0x131ef4ee4ab241605abf8c5fca98acd90419581b02b1df14691a6c48aad012a26d74addfdac8de4fef1ff6c0a2e932cd989b06fba2c8648362079bcbf2d09bf3b;
  0x1b3e1cd1ba75ab0306af2753ca5c1ce77f14a1bcd2753e469d394dc1ca987f92a836a2f4aa914e055e8ec8bb62b1ac8071a4c1eab290f1ede7f33ec5a2991fae0;
  0x18af63c6c275ab030425e1d3aa5c118a5d3a2dba12753e469b555d858a5bfda6f77c75244a54bbd01102a6a852751cacaddeef3742544acc73a5aa8b725c7e3d3;
  0x1a47efc062b2416058d6e541ba989bbe171f4a9f52b1df146641fb742a5be952f40b1e36125519a076bf0198d2751cacac2e1638f254a3d3154856e74a5c6efe3;
  0x17c0d16482e9cc3480ff35425ad026cdd8f4d3e0e2e9570453db01be1a987046076f7e031291a7ea10923c8e72b1ac806f19387862913bf799fe1dadca9914348;
  0x1d0193d4e31c3977a6bc9d8eab02919c63134b28131bd34a846a386ecad007ae28d3459222c92f84c851bb9f42e932cd96c8887bc2c8c47594a976926ad08b855;
  0x13c118e213499640ceab298f3b30043ef2cf10a823492ece970f8735ab02673588cc9ea6e2fb9d7b69cd8440831ba1f47113fbf902fb343135b8123ffb030d686;
  0x154701e4e371f4e189cb6dd9ab5840e0496537453371755a512afb3e6b2fd1876a18c710c3290bef9b10069413490ed4cae09cc0c3288f6b93f9aca28b305d26f;
  0x132cf585539525bfa538cf27bb7b786ae68e2b6a4394b5fa4501a03d6b581ef80d4c079373514a587c777a2933714de680232fdfc350ec795323dc2f4b58ae7ac;
  0x10e4b41173b347c74c77eca32b99a44170db750fa3b2e8fc2a4eb5d06b7b5088d603d61543748378bdaf2814039487926e82349e037420dbec147587db7bf8ebe;
  0x1479662333cc5bf3679eb73efbb2bf140177d6a863cc0418d9c06b1adb99774342a5a08b7392b05bedab631f13b2b4a247b9b97cb392428000d3313e8b9a19b52;
  0x17c1619483e05f616273c717bbc6c7484cf3c15ce3e008debdaa75e1cbb28d49d3eb311973abcaf7b368c364a3cbce42fd479caa43ab57155164dd5aabb32b0b6;
  0x126e40a953ef5171a666aaec6bd5c3bb9caeb58183ef06ce179a5f13abc68d020c5b0ca433bfcf7dcb91c745f3dfcdef7879f29eb3bf5d6112dfad8cbbc72dfdf;
  0x1ee4cd8a33f932760f5b2ea00bdfd1d65f9ae73953f90f02ba76708c6bd56dc443b2054a53cebd1bbfba0c6543eea995b6c38f1b53ce5aa7babf16e7bbd62203b;
  0x10b39f6363fde11bd1af224fdbe530b937aa7b9ba3fe628efda6a4f9ebdf182384066c5153d8943d7cc6248a43f845f4015d1f26d3d8657a9858a9270be00762e;
  0x1127cb7bebfcfde34bae3db8bbe670c0ada2d26db3ffad0f24456199bbe2477f5ab9f635d3dd3d4e27b2c0dd43fb7d0e99120ec4d3ddd3aee39a4d0e1be49d7c8;
  0x1b298353bbfcf5932664918edbe3ebe333e8b7da33fd1e2a759d233da3e36014ab8f2defabdc504934ec52724bfc99a9228098c883df1afa1c4ea46643e3b6387;
  0x14b0ee513bf673cf907cdfd7cbdd09b0453043cb73f63523c753dc66bbe231e7c177e562abdc4acd9f71077b03fb63ef01aedf7603dc79782be3238343e3af136;
  0x14b7ab67a3f673cf907cdfd7cbdd09b0453939def3f63523c753dc66bbdc72756c09ed76bbd5ea70b767257de3f5af0b4fc7f78763d597c600c7957993dd3f8d0;
  0x1b287da5d3fcf5932664918edbe3ebe333e4029a13fd1e2a759d233dabdc72756c0d5b3d43d5ea70baf95b1c83f5af0b4fc7f78773d597c60162b85c2bdd3f8d0;
  0x11325dace3fcfde34bae3db8dbe670c0ada8144e53ffad0f24456199bbe231e7c183ed2eb3dc4acd9dca95c073fb63ef01aedf75f3dc79782bb1a3e05be3af136;
  0x10c4e31b1bfde11bd1af224febe530b937ae94f2b3fe628efda6a4f9d3e36014ab76894ca3dc50492d5a7631bbfc99a9228098c873df1afa19a7888c8be3b6387;
  0x1eeaddf9cbf932760f5b2ea00bdfd1d65f97224073f90f02ba76708c5be2477f5a89ce4f1bdd3d4e2602063c43fb7d0e99120ec4e3ddd3aeefbc6316b3e49d7c8;
  0x12702cccabef5171a666aaec6bd5c3bb9ca79c7773ef06ce179a5f13abdf182383fc30321bd8943d7b4a3849b3f845f4015d1f26c3d8657a9431c0d103e00762e;
  0x17c5abf05be05f616273c717bbc6c7484ce7467213e008debdaa75e1cbd56dc44398199adbcebd1bbbc5ce28e3eea995b6c38f1b53ce5aa7b46581d7c3d62203b;
  0x14855f88dbcc5bf3679eb73efbb2bf140171ffcf93cc0418d9c06b1acbc68d020c60ecbdbbbfcf7dcb600d65e3dfcdef7879f29eb3bf5d61172b9be7a3c72dfdf;
  0x10dd48d7dbb347c74c77eca32b99a44170dd2f38e3b2e8fc2a4eb5d06bb28d49d3edce216babcaf7b617d28ee3cbce42fd479caa43ab571550b246fb83b32b0b6;
  0x132a38866b9525bfa538cf27ab7b786ae697010cf394b5fa4501a03d6b99774342acd4a21b92b05bed483412e3b2b4a247b9b97cc392427ffeec119b739a19b52;
  0x154d58a08b71f4e189cb6dd9ab5840e049690a55a371755a512afb3e6b7b5088d5ff763f5b748378bbee27b9b39487926e82349e037420dbe9232450737bf8ebe;
  0x13aa44f1fb499640ceab298f3b30043ef2c4a1f383492ece970f8735ab581ef80d4484a2fb514a587d053ba113714de680232fdfd350ec795342089d1358ae7ac;
  0x1cfed59a5b1c3977a6bc9d8e9b02919c6302f92dc31bd34a846a386ecb2fd1876a3100902b290bef9c01569ca3490ed4cae09cc0d3288f6b9043852083305d26f;
  0x17be4981bae9cc3480ff35425ad026cdd8f0b56812e9570453db01be1b02673588cb18826afb9d7b664c55f3e31ba1f47113fbf8f2fb34313728bd00f3030d686;
  0x1a4a281d7ab2416058d6e541ba989bbe17258ed6e2b1df146641fb743ad007ae28d7c2f05ac92f84c929b1e512e932cd96c8887bc2c8c47592131d55d2d08b855;
  0x189ae99e3a75ab030425e1d3aa5c118a5d3cda48c2753e469b555d857a987046076ce8b51a91a7ea11c1fe8092b1ac806f19387862913bf79a920b4d229914348;
  0x1b6296f9f275ab0301ba18f66a5c038ad7074fdd92753e46998767b53a5be952f41813c0fa5519a076e7b9c962751cacac2e1638f254a3d310d54d2ad25c6efe3;
  0x1b3fefc062b2416057046f5f2a9886ac0be14e33b2b1df14638a9fb50a5bd0488d14b7cfc25552a288589b2442751cacaa90e5a75254f8ce9c86e9da2a5c5c366;
  0x1fb0d16492e9cc347e633ebfaad017b7c249641792e9570451e922dfca985d6d73af7e032291fdb980923c7932b1ac806cab45ffa2917bed2952417eca9906121;
  0x14cff476931c3977a4f5a268cb027d0f12d2c57a531bd34a81c3f8facacff45f9e168b2452c96cf55051bb9002e932cd950b3997e2c910062624a9032ad07747c;
  0x101f7f4883499640cc5d81fbdb2feddb2e638e6ae3492ece95580525bb0254d3b4dfd1da32fbf12e4833ea92231ba1f46eb5586512fb7293e1e4a16e2b02ff3e1;
  0x1325684b4371f4e186f46d619b583074a41ac74f6371755a4f0d14759b2fb9b4bd9bfa441329422c2a4339b9d3490ed4c95783ef6328e045af7ff8ff9b304b48e;
  0x16935bebc39525bfa38e72ea7b7b6527a1d726b80394b5fa4285eccc5b5810489b9da12d13518d373faaad4bd3714de67e3e8c6e23512814dd0c954eab5898734;
  0x1c964dab13b347c74a9c2be70b998ebfdeff86b733b2e8fc2788f98a4b7b3f500e7d6faef374d1e7c0e25b33c39487926c49dc1f03745b54be6b5b8deb7bdf152;
  0x10afcc8993cc5bf365a5af16cbb2a8330c25779c83cc0418d846e6c6eb99640f1f126d58539303f083a27e5183b2b4a2453ff954039283c81ccd4eaadb9a0b4a9;
  0x168afb2e23e05f616075c4984bc6affbdc8728c303e008debc2a040bcbb278f5242e644cb3ac13efd0e794da03cbce42faa8a9fd43ab9c8817848be99bb31bbdc;
  0x1af4a70fb3ef5171a47ce2ccebd5ac9dac96fed3a3ef06ce161cec8babc678b108e7d97113c016a81295b06423dfcdef75db792ad3bfa41a17128b6ebbc71e89b;
  0x1d4334adf3f932760d9e5ec74bdfb9ffa8aa64ab83f90f02b8ed150e9bd55b0c8755387d93cf0b9abf10395aa3eea995b459d87583cea0d393fbfb755bd6132c5;
  0x1d4a05c9c3fde11bcef4d4a7ebe521212df25e6493fe628efba40592bbdf09cd8d0cd2b7c3d8e6118192f142a3f845f3ff8404aaf3d8add75dd983094bdff3d0d;
  0x160e31e24bfcfde348ca2a91cbe65de1d327816f83ffad0f21d69fff0be236bcf6e05c9c73dd7d890ae5f3feb3fb7d0e96e8f95373de192d43d6e385fbe488539;
  0x191a8353bbfcf593238c8f4b7be3d2b737acdca0a3fd1e2a73fdc88763e34e1039e8c7892bdc945ba01f85c2ebfc99a9202dff1213df54421dbef91da3e39fcb8;
  0x1c124feacbf673cf8e6136055bdcf82f38bafc0553f63523c59329456be222403c47e562abdc8dc40cb1077bc3fb63eeffaa412033dcc5e0db56e15d83e399041;
  0x1c11450143f673cf8e6136055bdcf82f38b197a483f63523c59329456bdc5f80381040a9ebd626dbc8945f8bc3f5af0b4d56545803d5ea51084770ac33dd2f32b;
  0x1916e40c43fcf593238c8f4b7be3d2b737c0fbaed3fd1e2a73fdc8876bdc5f80381a280a23d626dbc6497a4eb3f5af0b4d56545803d5ea510c56c0b9cbdd2f32b;
  0x1618c41353fcfde348ca2a91dbe65de1d3276472d3ffad0f21d69fff0be222403c37206203dc8dc408fdc8e243fb63eeffaa412013dcc5e0de0947913be399041;
  0x1d4f49817bfde11bcef4d4a7fbe521212df5df8b13fe628efba40592b3e34e1039dcefb2e3dc945ba08da936abfc99a9202dff1213df54421be227070be39fcb8;
  0x1d3428c05bf932760d9e5ec74bdfb9ffa8a59d50e3f90f02b8ed150e9be236bcf6c367e8bbdd7d890ab5397153fb7d0e96e8f95383de192d485aa96a73e488539;
  0x1af85a4cabef5171a47ce2ccdbd5ac9dac9ffcb013ef06ce161cec8bbbdf09cd8d1afcfedbd8e61186809eb043f845f3ff8404aae3d8add75d5b660383dff3d0d;
  0x168d6556bbe05f616075c4984bc6affbdc906ffae3e008debc2a040bcbd55b0c8756cf9adbcf0b9abdd3671473eea995b459d87573cea0d394306ef813d6132c5;
  0x109b84e27bcc5bf365a5af16cbb2a8330c25deb723cc0418d846e6c6dbc678b108f26d0a8bc016a80f1ce9e623dfcdef75db792ae3bfa41a142310f873c71e89b;
  0x1c9780adabb347c74a9c2be70b998ebfdefffbf033b2e8fc2788f98a4bb278f5242b6f889bac13efd8ff769443cbce42faa8a9fd43ab9c881767f97853b31bbdc;
  0x168a11e9db9525bfa38e72ea7b7b6527a1e45f97f394b5fa4285eccc4b99640f1f06d3fc8b9303f084917d6643b2b4a2453ff954039283c81f5329dc139a0b4a9;
  0x1326e6985b71f4e186f46d618b583074a413ddbce371755a4f0d14759b7b3f500e754216ab74d1e7c3fb0684839487926c49dc1f13745b54c4ae0b4c537bdf152;
  0x10186947eb499640cc5d81fbdb2feddb2e5c27e683492ece95580525ab5810489b9d90f75b518d373dd5e8f393714de67e3e8c6e13512814de052c8e435898734;
  0x14ca714fab1c3977a4f5a268bb027d0f12c7672a131bd34a81c3f8fadb2fb9b4bd9b7ace2b29422c2b4a8f4343490ed4c95783ef7328e045af4cdbf193304b48e;
  0x1fae492f2ae9cc347e633ebfbad017b7c2462d06f2e9570451e922dfbb0254d3b4c15ec1fafbf12e3cb4f78bf31ba1f46eb5586502fb7293e1aebe949302ff3e1;
  0x1b422819bab2416057046f5f2a9886ac0bffa85f62b1df14638a9fb4facff45f9e14f1534ac96cf55129cd5f22e932cd950b3997d2c910062737044a02d07747c;
  0x1b4e1cd11a75ab0301ba18f66a5c038ad709b59832753e46998767b52a985d6d73b23d9d1a91fdb981c200f1d2b1ac806cab45ffa2917bed2b34331c929906121;
  0x10aa96fa0275ab02ff71c4c39a5be616dec4323542753e4697d3df3dea5bd0488d1a87fb0a5552a28881537102751cacaa90e5a75254f8cea5986d77b25c5c366;
  0x1dc645e732b24160554ca8bd8a986dd6d508f8cd72b1df1460fb0b64da5bb2c57ef4b7cfd2558861b8589b1702751caca90b5831d2552476d2ab0b300a5c46142;
  0x1e7c0497c2e9cc347bed7e782ad005f00c78d31632e957045013bf417a9847376399179cd292275029e2b7cc32b1ac806a60e7dce291b83a1ac40e2eba98ead31;
  0x12265adcf31c3977a348ae665b0264d64a220d50e31bd34a7f4486610acfd491493024be12c9a6e20deb551b52e932cd9367642ee2c93b32dcffa96cdad05f6d0;
  0x1af918e223499640ca3195d2bb2fce76e6ee28ee13492ece93b9a79f8b023f2998b96b73d2fc200bb5b38ed8f31ba1f46c7968f752fbad64fcccaf2f2b02debee;
  0x109bceb1b371f4e1844703c27b581d1a6267962cc371755a4d0e2dc09b2f9da11368c710f329754e6f10067a03490ed4c7e4e7f8a329163fe8a63beeeb30363a0;
  0x16635bebc39525bfa1fc7aab2b7b4e73d3e1590ee394b5fa402e971d8b57fdf3bdae758d7351cc4296dde06f73714de67c75a27413515713061cf6266b587e7cc;
  0x181c9b5623b347c748dba281bb997567379d88d2e3b2e8fc24ebd73fcb7b2b0409bd6faf03750ded08712d90c39487926a3206f98374927541afe937fb7bc0a14;
  0x1241662333cc5bf363c98b0edbb28d3c4262f8ca83cc0418d6e2fb229b994d6d25c26d5863932d322fa27e4753b2b4a242ea7a5d5392c1542d774560eb99f49a3;
  0x15b2fb2e23e05f615e94ef1fcbc69486669cacdde3e008debabf905a3bb260ff189b311993ac3fbb81b4619c03cbce42f830194273abde01c5aed1da6bb309b49;
  0x18a173dc83ef5171a2af1f77cbd5915f0498cd3f13ef06ce14b54c434bc660bf5187d97133c042e23e95b05933dfcdef73635ab9b3bfe6c75fe68269bbc70c530;
  0x1b3cce4793f932760bfb01250bdf9de73b518392f3f90f02b77a3a3bebd544fd2c0b9ee413cf3613e1769fb693eea995b213782543cee2fbd761d795fbd601ae9;
  0x19fb9f6363fde11bcc62798fcbe50ec050cf72ba23fe628ef9bed6c09bdef1d08a86723c83d9199b872fdefe23f845f3fdc5fab913d8f2105e248b2a4bdfd40b9;
  0x1ede31e24bfcfde346106db7bbe647a45d64b2f9c3ffad0f1f8b7e93cbe222fc79b9f63653ddba1767b2c0bad3fb7d0e94df87b8b3de45cde42571a09be46f637;
  0x11b13686ebfcf59320de32a08be3b50c951fec9dd3fd1e2a727630a0a3e338d42d28c7890bdcd489781f85de7bfc99a91dfd693453df8a434eae75aea3e3855d7;
  0x107597eacbf673cf8c646b7fbbdcd822e0318db613f63523c3ec214a3be20fcd1fec4bc91bdccce5cd4aa11603fb63eefdc33099f3dd06f5457e1bcf23e37f046;
  0x1089450143f673cf8c646b7fbbdcd822e036091ca3f63523c3ec214a3bdc49286b08e0a9ebd655a84b7c5f8bd3f5af0b4b087b8993d61c119ecb7036c3dd1becf;
  0x11b3b0d913fcf59320de32a08be3b50c95306b61b3fd1e2a727630a0abdc49286b0a280a33d655a84a497a4323f5af0b4b087b8993d61c11a41876fbdbdd1becf;
  0x1ed8c41353fcfde346106db7bbe647a45d6243cfb3ffad0f1f8b7e93cbe20fcd1ffd86c883dccce5cf642f3873fb63eefdc33099f3dd06f549c75b48bbe37f046;
  0x19f9afe7ebfde11bcc62798fdbe50ec050d0f518d3fe628ef9bed6c083e338d42d5cefb2b3dcd489608da90b4bfc99a91dfd693463df8a434d97b2b59be3855d7;
  0x1b37c58d1bf932760bfb01250bdf9de73b50c241a3f90f02b77a3a3bebe222fc79cd01825bddba1764686ca643fb7d0e94df87b8a3de45cde128cf7de3e46f637;
  0x189e5a331bef5171a2af1f77cbd5915f04a78f3df3ef06ce14b54c434bdef1d08a8dd3974bd9199b86a3828b63f845f3fdc5fab913d8f21061a1c06d33dfd40b9;
  0x159d81e05be05f615e94ef1fcbc6948666a57ddba3e008debabf905a4bd544fd2c01b667abcf3613dfd39a47a3eea995b213782543cee2fbcf2a1501c3d601ae9;
  0x124f2034abcc5bf363c98b0ecbb28d3c426bf7fbb3cc0418d6e2fb229bc660bf518eb6fdbbc042e2431366b2f3dfcdef73635ab9b3bfe6c75d19160ef3c70c530;
  0x181b9372dbb347c748dba281ab9975673792c23863b2e8fc24ebd73febb260ff18a2e3e70bac3fbb82765aade3cbce42f830194273abde01cabb8d4ac3b309b49;
  0x1668e4da3b9525bfa1fc7aab1b7b4e73d3ec0682b394b5fa402e971d7b994d6d25bfa6977b932d322e79241b13b2b4a242ea7a5d5392c1542a65bc75a399f49a3;
  0x1098c1981b71f4e1844703c28b581d1a625e9400e371755a4d0e2dc09b7b2b0409b2b8e10b750ded0b8505d1939487926a3206f97374927540cbfd0d837bc0a14;
  0x1af1c4eb4b499640ca3195d2bb2fce76e6f0fdc093492ece93b9a79f8b57fdf3bda1eb823b51cc429a8ce8fae3714de67c75a27413515713067315e3d3587e7cc;
  0x1220d16eab1c3977a348ae664b0264d64a1decfdf31bd34a7f4486611b2f9da113692a83db29754e702c036d73490ed4c7e4e7f8a329163fe582c99e7330363a0;
  0x1e697c14dae9cc347bed7e782ad005f00c78f36452e957045013bf416b023f2998ae00589afc200baff5213c231ba1f46c7968f742fbad64fb8221f61302debee;
  0x1dcab692bab24160554ca8bd8a986dd6d5109e3c32b1df1460fb0b64dacfd49149482a501ac9a6e20ec380be02e932cd9367642ee2c93b32db9f8fd572d05f6d0;
  0x10961cd0da75ab02ff71c4c39a5be616ded2b71002753e4697d3df3dea984737639d0a918a9227502a7a9b37b2b1ac806a60e7dce291b83a16e23ec63298ead31;
  0x1a18fd606275ab02fd5285d8fa5bc069a549c46f32753e46963ef5e52a5bb2c57eed8f670a558861b881537e42751caca90b5831c2552476d43f916c225c46142;
  0x1e6645e732b2416053b3cd984a98517babb09a4e02b1df145e998ecb0a5b91128bb7eb032255ba598b8bce3df2751caca7a12e41a25549b5486801803a5c2ccde;
  0x13640497c2e9cc3479a405057acfe3451a76de7372e957044e5f5c210a982dda99b9179ce2924ceb85e2b7c302b1ac80683fc3b48291f049b58e389a7a98c4c7e;
  0x105cc143631c3977a1b9e3141b02492dc0af7720231bd34a7cf209232acfb03fbcd024be22c9dcbc3deb550e22e932cd91e11351f2c963567d7648369ad0442fe;
  0x1ef77f4883499640c82cbfa8fb2faa9e743a204eb3492ece92386c390b02266c9e03050d82fc44ba174d2869931ba1f46a65afbf52fbe413605414b98b02b9a36;
  0x101a35181371f4e181c9cad0cb5807013a83e9806371755a4b3332b56b2f7d91a40bfa443329a4d87a4339a193490ed4c68c5a91a32939af06a7abcc0b301e2e5;
  0x166828b8939525bfa086c56fcb7b3487750d2ee27394b5fa3e0164cd3b57d66d04f1a8c0c352036fa70889ca23714de67accd86dd35182c366012f8d9b5860d74;
  0x14c301bc83b347c7473aa2480b995875f7646bb933b2e8fc227dc0a38b7b13d6d1c0a2e24375304ccba460bb83948792683fde3aa374c5b5a068a2a53b7b9ddb5;
  0x1102cc4673cc5bf3620ee10a5bb26e721e5be51b43cc0418d59815ac4b993395231c06f21393538d513c17d783b2b4a240befdad0392fa8c89d64de37b99cdcd0;
  0x190c5cc2b3e05f615cd5e8234bc6752b9db6eca953e008deb96e9865dbb245a2c41b3119a3ac6872f5b4619203cbce42f5e40203d3ac0d7088055b704bb2ea38a;
  0x15c2e7b913ef5171a101d35d5bd57242d040624ec3ef06ce1366f4db3bc64567ee91730ad3c06c00702f49e8c3dfcdef7117adbbf3c01262479349f07bc6ef0d9;
  0x1b7b34ae03f932760a751fa2cbdf7dd25bfd51e523f90f02b62172643bd52bcc94bb9ee423cf5d9091769face3eea995aff609f7b3cf103eac6d69265bd5db6b1;
  0x121ed296a3fde11bc9fe68273be4f387df2fdc7b93fe628ef7fbc4b17bdecb3aa879a56fd3d93d781cc9788ee3f845f3fc274cfd53d918bec66fe286fbdfafc46;
  0x14e49848abfcfde34387bf617be62e3f212e205063ffad0f1d69a4ddcbe20c6e952d2969b3ddf263c94c5a4513fb7d0e92fabf8933de6f4b43fc45b9fbe452e99;
  0x1e040353bbfcf5931e6017b98be3932c7022b12233fd1e2a710a20fa93e32094dfa261228bdd0819f5a95c959bfc99a91bf43d4393dfbc787634ae2313e3672f8;
  0x161b86513bf673cf8a8b66a91bdcb38a83fe072dd3f63523c262d7686be1f577d1f3cac55bdd03cba15883be83fb63eefbfe5eb4f3dd2871d252b06b83e361545;
  0x1604783483f673cf8a8b66a91bdcb38a83e54ce093f63523c262d7686bdc2fa51ad98d76bbd6812a7d8392bf13f5af0b48e41b54e3d6403e6b8d3197d3dd05eb2;
  0x1e0a173f83fcf5931e6017b98be3932c701d741c83fd1e2a710a20fa8bdc2fa51ad3c1a3e3d6812a7fe313d203f5af0b48e41b54d3d6403e698d2b9ffbdd05eb2;
  0x14f8c41363fcfde34387bf617be62e3f21309eb173ffad0f1d69a4ddcbe1f577d1e173f7a3dd03cba54bb12e53fb63eefbfe5eb4f3dd2871d245e6cbbbe361545;
  0x122149817bfde11bc9fe68273be4f387df22f16793fe628ef7fbc4b173e32094df9cefb293dd0819f046d4719bfc99a91bf43d43a3dfbc7874241220cbe3672f8;
  0x1b74af26bbf932760a751fa2cbdf7dd25bf5fe0523f90f02b62172644be20c6e953367e8cbddf263c3353974a3fb7d0e92fabf8923de6f4b44fcf129c3e452e99;
  0x15c25832ebef5171a101d35d5bd57242d043adf723ef06ce1366f4db3bdecb3aa87b46ca8bd93d781b29e8f1e3f845f3fc274cfd53d918bec41d94f623dfafc46;
  0x18ec809a3be05f615cd5e8235bc6752b9dbe66ddd3e008deb96e9865ebd52bcc94b1c9347bcf5d9090384d7ae3eea995aff609f7b3cf103ead5aaba4a3d5db6b1;
  0x10fd8c374bcc5bf3620ee10a4bb26e721e68c410d3cc0418d59815ac3bc64567ee934d575bc06c00717e951963dfcdef7117adbc03c012624d1066a913c6ef0d9;
  0x14d72a6f9bb347c7473aa2480b995875f77a135d03b2e8fc227dc0a38bb245a2c4151eb30bac6872f13f0dade3cbce42f5e40203d3ac0d70888f18c943b2ea38a;
  0x1672acaceb9525bfa086c56fcb7b3487750b1b6c6394b5fa3e0164cd3b99339523190b333b93538d508aa49b13b2b4a240befdad0392fa8c8bf5b0392399cdcd0;
  0x1012f4d3fb71f4e181c9cad0cb5807013a8108ffb371755a4b3332b56b7b13d6d1bc4cf27b75304cc7390d56c3948792683fde3ab374c5b59fc519d4037b9ddb5;
  0x1eeff20e7b499640c82cbfa8fb2faa9e7439566383492ece92386c38fb57d66d04ed9eb03b52036fa7933fcfc3714de67accd86dd35182c36af6cba1335860d74;
  0x105732079b1c3977a1b9e3141b02492dc0958081c31bd34a7cf209233b2f7d91a4105e257b29a4d87b724cfc93490ed4c68c5a91a32939af057403ced3301e2e5;
  0x13517bcd4ae9cc3479a405057acfe3451a78a05e02e957044e5f5c210b02266c9de63664eafc44ba118fb261a31ba1f46a65afbf42fbe4136250f6ac8302b9a36;
  0x1e6ab68c2ab2416053b3cd984a98517babb2a2efa2b1df145e998ecb0acfb03fbcdaac118ac9dcbc3ec3988ef2e932cd91e11351f2c963567bd5f6d7e2d0442fe;
  0x1a148336ea75ab02fd5285d8fa5bc069a556cd20e2753e46963ef5e51a982dda99bc20adea924ceb867a9c46b2b1ac80683fc3b48291f049b63602e8c298c4c7e;
  0x17b43093a275ab02fb61978aba5b966ae54b70beb2753e4694cc91f1ea5b91128bb419384a55ba5987b486bda2751caca7a12e41a25549b5463be3e7825c2ccde;
  0x136312b412b24160523dcdefda9831e078a2a4c342b1df145c6c088b7a5b6b82c8a1849cd255e80eb92567cc72751caca655e4b9a2556bc6d0209ee39a5c10a21;
  0x167d9e3162e9cc34778c75d86acfb602a57da3a892e957044cd02d5f2a9811959d8c4ad022926f520d15eaedd2b1ac80664d1987229211c8de7008bdca989a607;
  0x1ba98e10331c3977a04d17a40b022a59a6d03eb5731bd34a7ad23aebaacf87c483bcf18b02ca06ff855c10e772e932cd907c094bd2c9880e045569fbcad025d37;
  0x148ab27bc3499640c653f9b6db2f82aa3628d9d2d3492ece90d808b44b020ad9c2163840c2fc6647ea805b94931ba1f4687f4ba902fc0b0c3208c6c86b0290470;
  0x190bceb1b371f4e17f82e5921b57dcbf4fc665b98371755a4980b65adb2f59d57aa593dde329d054cfdcd33093490ed4c5512d31b3295a18ac336b150b3003612;
  0x11c9c252339525bf9f30ec915b7b17a26ee50521a394b5fa3c03b394db57aa5e804e758da3521e3e596ef02a03714de6794845a3f351aaba38e8bb658b583fcbd;
  0x19396822f3b347c745bd2f4f1b99383379de58b613b2e8fc2044b36acb7af403156e129173754fbe3a0ac71a4394879266782e0e9374f49750768d8a2b7b77191;
  0x139f991343cc5bf36079f4639bb24c20890cdf3ac3cc0418d46966307b9916c6ce95a08bb39376a34ad5b16893b2b4a23ec2dcc503931771f943a7717b99a28d4;
  0x1342c32923e05f615b3cfdbeebc65238cf517bb1f3e008deb83a5af36bb227239b4e644cf3ac8db1a8e794bc23cbce42f3ca0e2583ac2947d93100d37bb2bc4f8;
  0x1f22e7b913ef51719f7920e3cbd54f95c278746573ef06ce12351e9e8bc626ee486b0ca483c0919d31c8e37933dfcdef6efe1b0f43c02ebc6f261dcd5bc6c0b0a;
  0x1eee67e133f9327609107b792bdf5a1022d5053c43f90f02b4e60f8f3bd50fb8dbdb9ee433cf81af5d769fa413eea995ae06c4c753cf2c602bbfbaaf0bd5aee4d;
  0x1ab39f6373fde11bc7ce856f6be4c4bf8f4b09ee53fe628ef65f27798bdea03895133f0983d95e45e5964553a3f845f3faabf9d353d935c127d1fea44bdf8754b;
  0x1f8afeaf0bfcfde341365ed54be611f0bad3bba1b3ffad0f1b76549d3be1e695c973ec6d63de12f1afd9604ec3fb7d0e913f4bf583de953f10ca07e95be4332c1;
  0x1f40b686ebfcf5931c1863c92be36d6a4d21a55153fd1e2a6fbd1b2573e3058e188bfabc1bdd2363ff42f63acbfc99a91a178027a3dfea65c900e85a13e3458bf;
  0x1cd54e3bfbf673cf88dab5b27bdc8ac05d2067fac3f63523c0fb153f1be1c6810f9c97922bdd1ea3dea5508ba3fb63eefa6027d563dd471386df533b93e3403d3;
  0x1cc5bd35d3f673cf88dab5b27bdc8ac05d300b2cb3f63523c0fb153f2bdc13352df797104bd6a8f71479f92573f5af0b46ee7bb393d66155a2fd0f6fd3dcdac73;
  0x1f3ee40c53fcf5931c1863c92be36d6a4d1fd965c3fd1e2a6fbd1b257bdc13352e06f4d723d6a8f70f1646fb83f5af0b46ee7bb393d66155a5181ee7cbdcdac73;
  0x1fcbf74693fcfde341365ed55be611f0bad464f933ffad0f1b76549d4be1c6810fae40c493dd1ea3dc7ee45ab3fb63eefa6027d563dd4713868a5a8fcbe3403d3;
  0x1a9e164e4bfde11bc7ce856f6be4c4bf8f3d0275c3fe628ef65f277973e3058e185022e5a3dd23640513a12c2bfc99a91a178027b3dfea65c58ca4da0be3458bf;
  0x1ef3ef26bbf9327609107b791bdf5a1022e2a3a733f90f02b4e60f8f3be1e695c9ad3637ebde12f1b2cdcfee43fb7d0e913f4bf5a3de953f0dfa1975b3e4332c1;
  0x1f2e8a995bef51719f7920e3cbd54f95c27c6c5853ef06ce12351e9e8bdea0389531c6ca8bd95e45e749e8f1e3f845f3faabf9d363d935c12784a49e53df8754b;
  0x13153ecd6be05f615b3cfdbeebc65238cf5a504d23e008deb83a5af37bd50fb8dbd7e79adbcf81af5e2fe71473eea995ae06c4c753cf2c602bf030c5d3d5aee4d;
  0x139b664dabcc5bf36079f4638bb24c20890c3282c3cc0418d46966307bc626ee485cb2ca8bc0919d2c0989e623dfcdef6efe1b0f53c02ebc6f16d170a3c6c0b0a;
  0x1947a6dbfbb347c745bd2f4f2b99383379d9025b93b2e8fc2044b36acbb227239b5dcb2d6bac8db1a8455f4773cbce42f3ca0e2583ac2947d6a8b07793b2bc4f8;
  0x11d022564b9525bf9f30ec914b7b17a26edbc9c11394b5fa3c03b394db9916c6ce9b27849b9376a34b20928173b2b4a23ec2dcc503931771fcd2d85f6399a28d4;
  0x1910bdd9fb71f4e17f82e5921b57dcbf4fd64f235371755a4980b65aeb7af403155e9afaab754fbe3cfac66d9394879266782e0e9374f49752356848037b77191;
  0x1482f13ebb499640c653f9b6db2f82aa3627c943d3492ece90d808b43b57aa5e803a254a5b521e3e589c6973a3714de6794845a3e351aaba38eca04e53583fcbd;
  0x1ba3f98f2b1c3977a04d17a40b022a59a6c62672131bd34a7ad23aebbb2f59d57aa3f076cb29d054d11d3ce193490ed4c5512d31b3295a18b060de6b233003612;
  0x167b1525dae9cc34778c75d86acfb602a5788087e2e957044cd02d5f1b020ad9c1faeddc6afc6647e8c3c66da31ba1f4687f4ba8f2fc0b0c2fb77dc9030290470;
  0x136783530ab24160523dcdefda9831e078c1440922b1df145c6c088b6acf87c483bfe89c4aca06ff85c83d7ec2e932cd907c094bd2c9880e0685eff252d025d37;
  0x17afb669ea75ab02fb61978aba5b966ae566b5a442753e4694cc91f1ea9811959d8cf33e9a926f520dadd07002b1ac80664d1987129211c8deaad28222989a607;
  0x1b0ec78da275ab02f9a3c2fd6a5b688227d1d97d62753e469380448f1a5b6b82c8a703ee6a55e80eb94e206252751caca655e4b992556bc6ce3fcdf9525c10a21;
  0x182cac4da2b2416050ee43d49a980f53285def4282b1df145a77d72e4a5b4272d09b1e3682560888595f80ae12751caca52cac5cb2558a578f0f29bdea5be3ac3;
  0x1210d16492e9cc3475abf951dacf84884f70d628a2e957044b6a0b22ea97e55c42a5626d22928e2efb7c514cc2b1ac80648db6bfd29228c9df38f3837a986c053;
  0x1cf327a9d31c39779f05cf757b0208a5fe17a565631bd34a78ea58700acf5b836b768b24b2ca1d188c28ddaef2e932cd8f3bb65ce2c9a8ff0677a9f21ad004a2a;
  0x1ecefe9113499640c4abd191eb2f56fcad78629683492ece8f9be1da8b01d96a00393d4e62fc846270e6c1f3b31ba1f466caebdd02fc217c5022541b6b02630fd;
  0x134bceb1b371f4e17d77f11b3b57a6e4c8807a522371755a47fae7e1bb2f32c4b0ebfa446329f7587643398d83490ed4c43668e41329772d1ef1f51abb2fcc28d;
  0x17268f1f039525bf9dfe3adbbb7af017fbfd6338a394b5fa3a3a6c0f6b577a34cdae758dc352364b5d6ef02433714de677eba815b351ce94fc8ff7446b581bac0;
  0x15896822f3b347c74466f6059b9914ef4737e5f383b2e8fc1e462a892b7abb87c9d478f7f3756bf3f53dfa46a394879264df59eb93750f5371f3dcf7bb7b4cba0;
  0x1cec65e013cc5bf35f0eab69abb2269c1e959a59c3cc0418d359d6ee3b98ee92598b41179393961da6d5b160f3b2b4a23cfafc65c3932eecc9ac1d2dcb997345a;
  0x17d9298f93e05f6159ce2018dbc62c0424fad8d353e008deb725cff3fbb205ccce61978033acaf1bf81ac7e743cbce42f1e76beef3ac42424a67264c6bb28a1ef;
  0x12efb485e3ef51719e18d034dbd529ad592ad72573ef06ce1122bb914bc6059d8164a63e23c0b35bbf627d0aa3dfcdef6d1bd00be3c0482c319698381bc68e017;
  0x16d19b1463f9327607d083ed2bdf32f8b8cf4d7e63f90f02b3cb1b4bcbd4e20e749da42ee3cfa21764a9d2cf73eea995ac4a6da0d3cf459d3959effcabd57e385;
  0x14286c3043fde11bc5d835c2cbe4919b0882446d83fe628ef4ecf85d2bde713458ccd8a333d97bb42663121943f845f3f957a86cf3d94fc7dd709e43dbdf5b204;
  0x1e8afeaf0bfcfde33f2202ff0be5e5fde749599313ffad0f19b65cd6cbe1af9ec48d860763de2a0ba70c937bb3fb7d0e8fb1724923deb74bc6eaf2b28be410795;
  0x1a44e9ba1bfcf5931a0cb5e1dbe344234310c79213fd1e2a6e92542be3e2d004f297f577fbdd3bdfd742f6450bfc99a9186bc93d43e009cd0b2d983423e320c5d;
  0x1696e63bfbf673cf8756835f8bdc5e28fc0efe1063f63523bfb851c2ebe19329c209645efbdd36b96d321d58a3fb63eef8ec893183dd628eda999dc5d3e31c109;
  0x167f56cf63f673cf8756835f8bdc5e28fc0411d433f63523bfb851c2fbdbe83d80f9ce208bd6ccabec31f92583f5af0b452c715c73d67f05c1f9612a13dca525a;
  0x1a3a173f83fcf5931a0cb5e1dbe34423430d82fa83fd1e2a6e92542bebdbe83d80fab67b33d6ccabed7cad5943f5af0b452c715c73d67f05bdc1ada37bdca525a;
  0x1e7f2a79d3fcfde33f2202feebe5e5fde7466ebd13ffad0f19b65cd6cbe19329c22173f7f3dd36b9714bb12173fb63eef8ec893193dd628edc436c6b9be31c109;
  0x1420e31b1bfde11bc5d835c2dbe4919b087f0ee0c3fe628ef4ecf85d23e2d004f286ac3173dd3bdfd1e06de8cbfc99a9186bc93d63e009cd0b4dec32ebe320c5d;
  0x16c31259ebf9327607d083ed2bdf32f8b8d61733c3f90f02b3cb1b4bcbe1af9ec4b39c9e5bde2a0ba041032213fb7d0e8fb1724943deb74bc5cd5cf703e410795;
  0x12f24d32ebef51719e18d034cbd529ad593be99663ef06ce1122bb915bde713458d7ed30ebd97bb42616b5bec3f845f3f957a86d03d94fc7e171628823df5b204;
  0x17d9bded6be05f6159ce2018cbc62c0425016ffc23e008deb725cff3ebd4e20e749f8668dbcfa217603a4d7ae3eea995ac4a6da0c3cf459d3025bbc423d57e385;
  0x1cdf47ef4bcc5bf35f0eab699bb2269c1ea0972793cc0418d359d6ee3bc6059d815fd24a8bc0b35bbc9f09e623dfcdef6d1bd00bd3c0482c308c32f053c68e017;
  0x1571c9108bb347c74466f605ab9914ef472d0fec83b2e8fc1e462a894bb205ccce62369f0bacaf1bf64a6f2de3cbce42f1e76beef3ac4242449894a9d3b28a1ef;
  0x1710543b2b9525bf9dfe3adbcb7af017fbfadf352394b5fa3a3a6c0f5b98ee9259a654c33b93961da6c589bca3b2b4a23cfafc65b3932eecc825c033b3997345a;
  0x134d5944fb71f4e17d77f11b3b57a6e4c8b6030d0371755a47fae7e1ab7abb87c9e758052b756bf3f247caea2394879264df59eba3750f537229c538937b4cba0;
  0x1e9f1f91cb499640c4abd191eb2f56fcad722d13a3492ece8f9be1da7b577a34cdab8de65b52364b5d2d2ceea3714de677eba815b351ce94fcf93eaeb3581bac0;
  0x1ced8e78bb1c39779f05cf757b0208a5fe0a31e6531bd34a78ea58701b2f32c4b0ea6f4ceb29f75873930ec4a3490ed4c43668e42329772d21503b1bb32fcc28d;
  0x120e481f3ae9cc3475abf951dacf84884f60d04402e957044b6a0b22eb01d96a000ccbf4eafc84626f2af4cf831ba1f466caebdcf2fc217c510aea14d302630fd;
  0x18311ce74ab2416050ee43d49a980f53285dd1b752b1df145a77d72e4acf5b836b7c6369eaca1d188a9513ea52e932cd8f3bb65ce2c9a8ff0523509682d004a2a;
  0x1ae5d339aa75ab02f9a3c2fd7a5b688227d677e712753e469380448f1a97e55c429d43cdca928e2efc1437b152b1ac80648db6bfd29228c9df3de01b02986c053;
  0x1201fac0d275ab02f81d5359ea5b37209c83b04192753e46925d41008a5b4272d0950f5ada5608885973dd02e2751caca52cac5cb2558a57924a1827e25be3ac3;
  0x165645e742b241604fc86a856a97d451d3e03b1a42b1df1458c1cbe32a5b1647e007eb0352561a7d21c5e71032751caca42861f0e255a51c056b5e590a5ba16bd;
  0x14a8092f92e9cc347407300bbacf4f5013ff925ae2e957044a30685faa97a2e0abf22f3a1292a93641e2b7acb2b1ac806305ea5cf2923cef30313c62ca983a288;
  0x1daff476a31c39779de7316b8b01c8cbba2fd312131bd34a773f14879acf2be98f0024be62ca3072aaf5aa7722e932cd8e233040f2c9c5d832ada18b3acfc1de7;
  0x179231c453499640c3385cf38b2f28018942cd3783492ece8e87031e3b019891521fa3b4e2fc9ebf6419f520a31ba1f4654cc43392fc3522b4c1a37adb02326d4;
  0x1d546a304371f4e17badf6b9eb576cf7a4e1eaa70371755a46a588534b2f08bf9708c711332a0cc18f88032913490ed4c33ec6cc732990a497e02f93ab2f8d20f;
  0x1ca4f585639525bf9cf1a4703b7aac2405ccf4e7f394b5fa38a9f59f8b574666ab01a8c103524b5b5f0889b8c3714de676ba5b3eb351edfb51a7e9161b57e9a19;
  0x1a696822f3b347c7433b42253b98de00a3f14c5fb3b2e8fc1c8710ad6b7a7ec70107ac2b337584a866d793da63948792637951c1037521be4ca7b9020b7b1f26a;
  0x195932ace3cc5bf35dd085c2fbb1fc82bb999818c3cc0418d26c0567bb98aad3c26b4117a393b1aebed5b15a63b2b4a23b6bc07c7393437cb6e168703b99406aa;
  0x1c1c5cc2c3e05f61588cd7ab5bc602ebd03c6140a3e008deb633a132cbb1c3e11da99566d3accc5f5b4dfb1383cbce42f040c14523ac58222bdeddd91bb25422c;
  0x11761aec43ef51719ce445eb3bd500e709bcaeedc3ef06ce1032702e2bc5c38f7942e61603c0d0e9042f49d063dfcdef6b7571bf73c05e72d95530a6abc6577d0;
  0x1eecce47a3f9327606b84dd94bdf08ec7e8369fbc3f90f02b2d34f33cbd4a006b8f0d76233cfbe7892436c6243eea995aac54c0073cf5bb769b5f9407bd549dd7;
  0x14e40b93b3fde11bc4204f89dbe45a986154cd2b83fe628ef3a8c804ebde3ea1de26723ce3d9957a4b2fdedfe3f845f3f82d9fd103d96692c0c134063bdf2b93f;
  0x162f96f79bfcfde33d4fcc5bfbe5a36c2c70979243ffad0f182e0df7fbe1747fa140b93ae3de3e46d172f9dcc3fb7d0e8e55076233ded51d7bd4285a9be3d64d9;
  0x1cee06a75bfcf5931842191a8be317bd164a869b73fd1e2a6d8cacaa43e29075b43e5bde3bdd5150ca7629812bfc99a916f5370333e01bd7e0bdc2eee3e2f26f9;
  0x120abb08cbf673cf86028cc1bbdc2e325004234de3f63523be9da8b34be15bf07d43cac55bdd4bd0e37883bf43fb63eef7a716fc23dd7a9fffa4718a53e2ea4f3;
  0x11f8f06903f673cf86028cc1bbdc2e3250057a2b23f63523be9da8b35bdba55cede987ba2bd6ebf10b912c58b3f5af0b43a251d923d6990589312c3e43dc6b75c;
  0x1cd0fb4bd3fcf5931842191a8be317bd1644a72133fd1e2a6d8cacaa4bdba55cede7834823d6ebf10be313b833f5af0b43a251d923d699058d859f1ecbdc6b75c;
  0x160b21c083fcfde33d4fcc5bdbe5a36c2c6f278603ffad0f182e0df7fbe15bf07d87da5e83dd4bd0e2e54ab5c3fb63eef7a716fc23dd7aa00068109fcbe2ea4f3;
  0x14da2c9c8bfde11bc4204f89dbe45a98615e162533fe628ef3a8c804f3e29075b41378fe13dd5150bb7a07745bfc99a916f5370343e01bd7e23e861d3be2f26f9;
  0x1ee6658d1bf9327606b84dd94bdf08ec7e9d46e5c3f90f02b2d34f33dbe1747fa0fd3637fbde3e46d30dcfef73fb7d0e8e55076223ded51d7be17c3763e3d64d9;
  0x1188db32ebef51719ce445eb3bd500e709b2b03443ef06ce1032702e3bde3ea1de3053974bd9957a5033828b93f845f3f82d9fd0f3d96692c5bec4dc23df2b93f;
  0x1c28b0fa3be05f61588cd7ab5bc602ebd03ecf3263e008deb633a132cbd4a006b8c92668dbcfbe789477cd7ae3eea995aac54c0073cf5bb77064f6c953d549dd7;
  0x195987b2ebcc5bf35dd085c2ebb1fc82bb90937523cc0418d26c0567cbc5c38f793b3a2e9bc0d0e8fb76851963dfcdef6b7571bf73c05e72dd07009153c6577d0;
  0x1a65e280ebb347c7433b42253b98de00a3f82b28c3b2e8fc1c8710ad8bb1c3e11db6b9493baccc5f5c95239443cbce42f040c14513ac58222ca37c5423b25422c;
  0x1caa3e2ceb9525bf9cf1a4702b7aac2405f6ad361394b5fa38a9f59f9b98aad3c2539e2d4b93b1aebf6bf6f7d3b2b4a23b6bc07c7393437cb4faf98dc399406aa;
  0x1d519ee4bb71f4e17badf6b9eb576cf7a51049291371755a46a588534b7a7ec70113d24b6b7584a86ca0cd4693948792637951c1137521be4f2dfa79437b1f26a;
  0x178202a4eb499640c3385cf38b2f2801893abebd03492ece8e87031e3b574666ab0fcafd0b524b5b6144255983714de676ba5b3eb351edfb50984f56e357e9a19;
  0x1daa57363b1c39779de7316b7b01c8cbba0256a5231bd34a773f1487ab2f08bf970ff79fab2a0cc190369b1d93490ed4c33ec6cc632990a497e29e38f32f8d20f;
  0x14a2f6409ae9cc347407300bbacf4f5013ed709da2e957044a30685f9b01989152140c68aafc9ebf665ed533d31ba1f4654cc43382fc3522b536ad89c302326d4;
  0x165ab67c5ab241604fc86a856a97d451d3f3cf8db2b1df1458c1cbe32acf2be98f0e7a8e2aca3072ab61e90bf2e932cd8e233040e2c9c5d831b3417d22cfc1de7;
  0x11d9066c7a75ab02f81d5359ea5b37209c98acd4b2753e46925d41009a97a2e0abd6d9e66a92a936427a9ed542b1ac806305ea5d02923cef2fe4dd83e2983a288;
  0x1a8b945a7275ab02f6d20b36ea5b02c001e09a9702753e46916654beea5b1647e0160322aa561a7d21da436d92751caca42861f0e255a51c034145dab25ba16bd;
  0x1c3312b412b241604ecf16784a97857abc622dbd02b1df14574e1ea06a5aceddb67ca2d3925629b982f91a3fd2751caca34b872fd255bbd26099a56cba5b5b264;
  0x177e6f9602e9cc3472a227701acf16dd28bafa6172e9570449264a53ca975c5c5fb895a08292c0253515eada82b1ac8061b97a5142924e07215d0423da9805454;
  0x1b864f53a31c39779cf400280b017be54686acf2a31bd34a75d48c959acef2d893337cb002ca40de2fc2774012e932cd8d352a93c2c9de526f71a06dbacf76228;
  0x19d8982ab3499640c1fd2fa73b2eec593b778e1b63492ece8d9c17195b0153c959993d4e92fcb51ddce6c1e8231ba1f4640882d902fc45cefada26153b01fdae8;
  0x1ee136fd1371f4e17a295f89eb572f86b57a791cf371755a4583e1506b2eb85b8c04c155b32a1b404454cff283490ed4c26ca96fe329a64042613687fb2f4a45f;
  0x1f59eb0ad39525bf9c0dbf7d4b7a64108411df355394b5fa37562b946b570f73d164dbf443525d3a72a2234e33714de675b74fd08352044fe2c8155efb5797340;
  0x192c9b5633b347c7423cf6928b988d883f833aa2e3b2e8fc1b0bb4224b7a3e568367ac2b4375999e9ed793d57394879262498841b375315ecf94328afb7add9eb;
  0x120932ace3cc5bf35cc293cd3bb1a6e788ccb67093cc0418d1a23bef8b9862f8dc84dab15393c9129ba27e21b3b2b4a23a190150639354ef1e0d8d7d2b990a79b;
  0x1862c32933e05f61577c3c8f7bc5aeaa43c991d253e008deb56623c4ebb177ce8c499566f3ace533bf4dfb0da3cbce42eeda203503ac6ab1a8f1abd8cbb21ae00;
  0x1e9c8152b3ef51719bde7ab57bd4ab4eb5cc562493ef06ce0f668ce25bc5778aa636194943c0e9fc09c8e36413dfcdef6a0f117ad3c0715986993f359bc61da9c;
  0x11eccfc273f9327605ca8c142bdeb8a63c6c5f6df3f90f02b2010e33fbd459fd4f240a9583cfd68cffdd05f633eea995a97b1f4593cf6e785821487b6bd512554;
  0x12ba71fa13fde11bc2ab0f4dfbe4203f3944574483fe628ef295b5b3fbde08fdd3533f09c3d9ab58c196454123f845f3f730bec6a3d979e999a03f791bdef24a4;
  0x13fc63c45bfcfde33bc43854fbe55cd0642ce83d73ffad0f16e12f354be135ca1fa71fa183de4f71463fc6a503fb7d0e8d2d663fe3deee6a953d242bbbe387210;
  0x139b6d0dcbfcf59316bcf81f6be2d14a7a9d295e73fd1e2a6caea9b723e24d0b27718f115bdd6382100fc3223bfc99a915b764f333e02b26e9e1b4a9e3e29e869;
  0x18d40ca25bf673cf84e218002bdbf6a533537fee63f63523bdadd2f0abe1215d675497922bdd5db64305508c43fb63eef692f391f3dd8f0baea218e8d3e297c47;
  0x18cc239c43f673cf84e218001bdbf6a5334bc0a963f63523bdadd2f0abdb5e6d85435aed5bd7033ca7abc95f93f5af0b4253e8d793d6af14f02e655c03dc2e45c;
  0x1390fb4bd3fcf59316bcf81f7be2d14a7a7fcfcc53fd1e2a6caea9b73bdb5e6d85211ce1d3d7033ca857f03f63f5af0b4253e8d783d6af14f2c9ed825bdc2e45c;
  0x13b18826f3fcfde33bc43854ebe55cd0642c887553ffad0f16e12f354be1215d6787da5ea3dd5db646e54ab163fb63eef692f391e3dd8f0bb3329a73bbe297c47;
  0x12c55fcfbbfde11bc2ab0f4dfbe4203f3951b9fda3fe628ef295b5b3f3e24d0b27b9df6453dd63821846d4356bfc99a915b764f343e02b26e976722b4be29e869;
  0x11efc4b3dbf9327605ca8c141bdeb8a63c6b391c53f90f02b2010e33ebe135ca1f2a0304dbde4f714634365653fb7d0e8d2d663fe3deee6a9570d82463e387210;
  0x1e95cc995bef51719bde7ab58bd4ab4eb5c1c51153ef06ce0f668ce25bde08fdd3652d30ebd9ab58bff6b5bed3f845f3f730bec6a3d979e99a8328caf3def24a4;
  0x18500cba3be05f61577c3c8f7bc5aeaa43d25d5e13e008deb56623c4dbd459fd4f19ef35abcfd68d00fa671473eea995a97b1f45a3cf6e78573c536343d512554;
  0x11f834901bcc5bf35cc293cd4bb1a6e788abf7cd33cc0418d1a23bef9bc5778aa62a3dae9bc0e9fc0a3c8d1963dfcdef6a0f117ae3c071598741c12063c61da9c;
  0x192fbd497bb347c7423cf6928b988d883f884b17e3b2e8fc1b0bb4224bb177ce8c4675779bace533c0cda96113cbce42eeda203503ac6ab1a9071fd333b21ae00;
  0x1f4cc323cb9525bf9c0dbf7d4b7a641083ecddf2c394b5fa37562b946b9862f8dc8185661b93c912a0722ad973b2b4a23a190150739354ef1cf7a59d33990a79b;
  0x1eb982749b71f4e17a295f89eb572f86b55eb7db7371755a4583e1506b7a3e56836c9344bb75999e9ff03c6bf394879262498841b375315ecdff4015e37add9eb;
  0x19e826159b499640c1fd2fa73b2eec593b6cd588e3492ece8d9c17193b570f73d1664825bb525d3a73468403a3714de675b74fd08352044fe26d9379a35797340;
  0x1b7b0e09bb1c39779cf40027fb017be5468531fe831bd34a75d48c959b2eb85b8c0c2776db2a1b404508fc5fa3490ed4c26ca96fe329a64045f09da4e32f4a45f;
  0x17795c535ae9cc3472a227701acf16dd28a54a0ce2e9570449264a53ab0153c9597f49f0aafcb51ddb2c32bc531ba1f4640882d902fc45cef8f9bb40e301fdae8;
  0x1c4783454ab241604ecf16784a97857abc66043182b1df14574e1ea06acef2d8932e8e26faca40de302ebccf12e932cd8d352a93c2c9de527064599ee2cf76228;
  0x1a62a005ca75ab02f6d20b36fa5b02c001e96dcad2753e46916654beda975c5c5f978ec10a92c0252dadd2a6e2b1ac8061b97a5132924e0722607a7e329805454;
  0x1471fac0e275ab02f5c51b540a5a97c2f36dd4d2f2753e46909de08efa5aceddb6887a18fa5629b9830d76a452751caca34b872fd255bbd263211ccdf25b5b264;
  0x1b8c8bce92b241604e04ae602a9732e369e63c8f12b1df14562063bcda5a6cb6842fd606d2563617d1c5e709c2751caca2983c996255ce426a370254ba5b1188e;
  0x1404d5fc72e9cc3471804fbbdaceb775726e3b94d2e95704484e41167a97127d38522f3a3292d2c341e2b7a302b1ac8060ab9a35b2925be78f06729fba979bbbd;
  0x17464f53a31c39779c2e933d4b012b5638d34ee0331bd34a74ae3e64aace89102ae6afe352ca4e32a68f4409d2e932cd8c73f02892c9f231716bb994bacf26cc3;
  0x18aefe9123499640c0fd52b7eb2e83f18b607f4013492ece8cdd60fa0b010bbba9993d4ea2fcc7469ce6c1e4031ba1f46301473a22fc5357f87752459b019199e;
  0x12ee03c9e371f4e178ede9953b56de52e8035cb4c371755a4498bcf68b2e5afa3f17f489032a2704af219cbc93490ed4c1c216d3a329b7caf6f7c8ca9b2f043cb;
  0x1c46b7d7a39525bf9b54bdddab7a188f28a80381f394b5fa364253a70b56abc772701e4f03526bbc863bbce473714de674e5047263520f20542e503ddb5740da9;
  0x1d52d045f3b347c7416e863f2b98393bc5bc74ac23b2e8fc19d7bc306b79f5aa5ef5bebd0375aaa2f8712d6b239487926152ea6423753e0e6f112c256b7a78569;
  0x15f26559c3cc5bf35be76f0fcbb14d39b31235e2a3cc0418d0fe6c02fb9817b2ceab4117c393dc0faad5b15083b2b4a239060209039363190148b75f4b98a3ef9;
  0x1abf1febf3e05f61569eeedbbbc55357227d101b73e008deb4bf5248bbb1281d7569956703acf95beb4dfb0903cbce42edb6fcea83ac79c2f1d1b7a91bb1bdc7a;
  0x15b29c3f03ef51719b09f4020bd450b1d9e7c3b1f3ef06ce0ec108592bc527e7f57c7fafc3c0fe5714fc169293dfcdef68ec22ca43c080b19cf963c41bc5c22c7;
  0x17a33628e3f93276050988c96bde5b35193e767f23f90f02b1565ea96bd4109ee2ea70fbf3cfea195b103924e3eea995a86f157503cf7db1c882d2057bd4b051a;
  0x1480d86083fde11bc17c0d477be3c63ed62d2a6083fe628ef1b667950bdda198efd9b146d3d9bd19a2631209d3f845f3f66374c1f3d9899cb81e535bebde88a00;
  0x17cf96f78bfcfde33a83162edbe512d8a2c5e14793ffad0f15d2f538bbe0e831b51b0c1033de5d60bb0c936e43fb7d0e8c3d67bbb3df017a5e19691a1be334302;
  0x18e5a040fbfcf5931581124e1be26e9fa531ea48f3fd1e2a6bfa6eac83e2066b83de5bde0bdd7246e276298e8bfc99a914b5629cf3e037946e4cf3d213e2469f9;
  0x19d8f2de4bf673cf83f7ec44ebdb8c0e8b07c24ab3f63523bceb1fc64be0c801d30dfbf11bdd6c3d84ebb6f2d3fb63eef5b2c7bed3dd9f9f96f2055e73e2414c5;
  0x1a38473873f673cf83f7ec44dbdb8c0e8b09bd3ef3f63523bceb1fc64bdb141e28977486fbd70e01aa4d62f933f5af0b41446ecdd3d6c0fd8668330043dbdc592;
  0x18da94e573fcf5931581124e1be26e9fa52bff8a23fd1e2a6bfa6eac8bdb141e28a11ce1e3d70e01ac57f03ce3f5af0b41446ecdd3d6c0fd8af4e1088bdbdc592;
  0x1817ee8d63fcfde33a83162ecbe512d8a2a62fe043ffad0f15d2f538bbe0c801d2a94e5713dd6c3d82187de113fb63eef5b2c7bed3dd9f9f96d94a9f0be2414c5;
  0x14809302ebfde11bc17c0d477be3c63ed6306483a3fe628ef1b6679503e2066b842045ca93dd7246e513a0f8ebfc99a914b5629cf3e037946dfdd3ebfbe2469f9;
  0x17af84b3dbf93276050988c95bde5b351922e5ea63f90f02b1565ea96be0e831b56d9fa34bde5d60bc5a9cbd13fb7d0e8c3d67bbc3df017a5d79110e53e334302;
  0x15dd1acc3bef51719b09f4020bd450b1d9e1ab33a3ef06ce0ec108592bdda198efc35a61cbd9bd19a14eb5bee3f845f3f66374c1f3d9899cbe08c24993de88a00;
  0x1ab754813be05f61569eeedbbbc55357226f494103e008deb4bf5248cbd4109ee2faa8cf3bcfea195b849a47b3eea995a86f157513cf7db1cb49508693d4b051a;
  0x15d84bf35bcc5bf35be76f0fcbb14d39b319668783cc0418d0fe6c030bc527e7f570e77b6bc0fe57144cfeb2f3dfcdef68ec22ca53c080b19cd8c4e113c5c22c7;
  0x1d59dace1bb347c7416e863f3b98393bc5cc3159b3b2e8fc19d7bc308bb1281d758b18eacbacf95bead017c773cbce42edb6fcea83ac79c2efe8904c53b1bdc7a;
  0x1c53eeb46b9525bf9b54bdddab7a188f28b2c8f29394b5fa364253a6fb9817b2ceb09a4fcb93dc0faa3f7b3fd3b2b4a2390602091393631902a4cad1a398a3ef9;
  0x12e269552b71f4e178ede9953b56de52e79b0d897371755a4498bcf69b79f5aa5f0380845b75aaa2f75745af739487926152ea6433753e0e6d80f56de37a78569;
  0x18be5755fb499640c0fd52b7eb2e83f18b67fd9d53492ece8cdd60fa1b56abc7727b84dbbb526bbc8733469f93714de674e5047273520f205731a808735740da9;
  0x171b08a6fb1c39779c2e933d3b012b5638b9bf29b31bd34a74ae3e64bb2e5afa3f169a944b2a2704adda370023490ed4c1c216d3a329b7caf5029b47832f043cb;
  0x13ffc2774ae9cc3471804fbbdaceb7757277877572e95704484e41167b010bbba962ed2bdafcc7469f2ca59de31ba1f46301473a22fc5357f7edf82803019199e;
  0x1b956ceaeab241604e04ae602a9732e369e55d5fa2b1df14562063bcdace89102b1a5f499aca4e32a6fb8f22a2e932cd8c73f02882c9f23171fabc7802cf26cc3;
  0x1449066bea75ab02f5c51b540a5a97c2f3882b8392753e46909de08eea97127d386c74495a92d2c3427a9ff172b1ac8060ab9a35b2925be78e6e615162979bbbd;
  0x1afd8f1b5275ab02f4f91abc3a5a2618959f85c462753e469005d2a4aa5a6cb684394e756a563617d1da4373f2751caca2983c996255ce4268051e4e625b1188e;
  0x15cc8bce92b241604d6b25416a96baaef69bdea2a2b1df14553b831caa5a070c26163c6d52563f79a95f80a142751caca2103c34c255dc3edf6843884a5a8a923;
  0x1783459272e9cc3470a473846ace3cf52030a29ce2e9570447aa61468a968bf2aba45e747292e0e291e2b79fe2b1ac805fdee3659292666e3d0ce26d5a9728f60;
  0x156cb5ba131c39779b98d167db00afca5ae53216c31bd34a73ceff8aeace1b7eb20d1649c2ca584f2c28dda122e932cd8be15d62c2ca00a215f191c82acea93e2;
  0x1f3796bbe3499640c03b3cf4eb2e17cd6a136ca453492ece8c4cb6ef8b008233cd25add082fcd50cedb38eadc31ba1f462399a51b2fc5d9c568679550b0121a72;
  0x1948d4609371f4e177fe9e99fb5658fd1f9b3aed7371755a43e65efedb2df48300bcb5dee32a2ff1bcbb365433490ed4c140b3805329c519600eab16fb2e7763b;
  0x14a05171439525bf9ac867afcb7994b436aebb926394b5fa357115e93b5634889a235182435276bdd70889aed3714de674457f9b3352175454850ddeeb56ced41;
  0x161936ac63b347c740d1ee20ab97c3d615bbfefa73b2e8fc18ee201dfb7969d2e6828b89e375b78b6fa4609b739487926097d82bd37547adebc9a6339b7a0f6ea;
  0x1e926559c3cc5bf35b4133d25bb0e0aca5a8209733cc0418d082297fcb9793765b49b562d393ea76f7a27e1a23b2b4a2383568a1e3936dd76127d09a6b982ee07;
  0x1618b98593e05f6155f7102b2bc4e97ec5a6bdce63e008deb440c8054bb0ab24a4532ace13ad045317a6fd82d3cbce42ecda252cb3ac8530e854d9915bb141843;
  0x154c35d8a3ef51719a68bdc84bd3e5adcc479eae73ef06ce0e437aa4cbc4aad77805cc2c63c106e3f417a4e133dfcdef680f72f303c08c553c72d2c6fbc544af8;
  0x10c6695c13f9327604771fd49bddf4d7e4faa5fad3f90f02b0d4e5640bd38940ade1aec4c3cff8ed62436c54d3eea995a7a3c362b3cf893e3581d9923bd437ced;
  0x1cae7d8dd3fde11bc0963480fbe3479f51dee2e813fe628ef10d04326bdd2d30ab334ae083d9ca9120c9786d33f845f3f5c7bbe293d995856ee148d46bde1b2dd;
  0x102bfabbcbfcfde3398f7da3bbe48c76897d991ef3ffad0f1505fa3b1be0601b90e7d8dd53de67f2d7d9603873fb7d0e8b875b8543df0944aa070e1dcbe2bc8ee;
  0x177a73b51bfcf593149172788be2086cee63fb1633fd1e2a6b71b7e273e17a89cd2feaef2bdd7d7aeb42f65fabfc99a913f1ac1a53e04101c7b9587e03e1d726b;
  0x1c2f3944bbf673cf83464ae48bdb1da77077af55f3f63523bc576f385be048e497b462577bdd7742b4feea2623fb63eef508bc2ff3ddac32c77b499873e1cf783;
  0x1c45140543f673cf83464ae47bdb1da770651ccd53f63523bc576f385bda8e4c19c3b5daabd7162cfd5fc95f93f5af0b40768109b3d6ce933255c76553db57905;
  0x175b903153fcf593149172788be2086cee8245ce93fd1e2a6b71b7e28bda8e4c19a8a02a43d7162cff24bd07e3f5af0b40768109b3d6ce932b5795281bdb57905;
  0x1fc976b463fcfde3398f7da3cbe48c76897a5a9fe3ffad0f1505fa3b1be048e4975c818a63dd7742b47ee444f3fb63eef508bc2fe3ddac32c8fe1a3e3be1cf783;
  0x1c5859390bfde11bc0963480fbe3479f51e3af5523fe628ef10d043273e17a89cd5a252e93dd7d7aeead3a8bbbfc99a913f1ac1a83e04101c368b5471be1d726a;
  0x10cd84b3dbf9327604771fd49bddf4d7e5086f19c3f90f02b0d4e5640be0601b911a6c701bde67f2d4cdcff093fb7d0e8b875b8543df0944aaab485413e2bc8ee;
  0x15645b32abef51719a68bdc83bd3e5adcc1d30c2e3ef06ce0e437aa4cbdd2d30ab565a61cbd9ca912026b5bee3f845f3f5c7bbe283d995856deb4a1413de1b2dd;
  0x161b5ef46be05f6155f7102b2bc4e97ec5e881cde3e008deb440c8054bd38940adb2c66b4bcff8ed643f671473eea995a7a3c362b3cf893e338accb613d437ced;
  0x1ee2eeb0fbcc5bf35b4133d24bb0e0aca5bcb850d3cc0418d082297fcbc4aad77811b85d2bc106e3f3fb628cb3dfcdef680f72f303c08c553b1c230d93c544af8;
  0x161fe472bbb347c740d1ee20ab97c3d615b8f50ef3b2e8fc18ee201dfbb0ab24a43f28d8cbad045317a143fd53cbce42ecda252cb3ac8530e77e1838e3b141843;
  0x149aaab66b9525bf9ac867afcb7994b4368aad658394b5fa357115e93b9793765b69344c6b93ea76f31402d4a3b2b4a2383568a1e3936dd7609edc51c3982ee07;
  0x18ebed788b71f4e177fe9e99fb5658fd1f613f9c3371755a43e65efeeb7969d2e68642a3db75b78b72c79ad7939487926097d82be37547adeb4a7ac0437a0f6ea;
  0x1f55fa9ebb499640c03b3cf4eb2e17cd6a2b8743c3492ece8c4cb6ef7b56348899eb31dacb5276bdd63cd35a43714de674457f9b335217545244ec95a356ced41;
  0x15416b1e2b1c39779b98d167cb00afca5a9f1779f31bd34a73ceff8b0b2df4830076f3319b2a2ff1bd770ce0b3490ed4c140b3806329c5195e0c7968c32e7763b;
  0x17791e270ae9cc3470a473847ace3cf51ffd2669b2e9570447aa61467b008233ccef6fe69afcd50ceff9c656c31ba1f462399a51b2fc5d9c561ceb8cc30121a72;
  0x15d56ce67ab241604d6b25416a96baaef6cb208192b1df14553b831caace1b7eb209f8145aca584f2c952cc5b2e932cd8be15d62c2ca00a21816beb972cea93e2;
  0x1aeba6710a75ab02f4f91abc3a5a2618959edaf2e2753e469005d2a49a968bf2abb063ef5a92e0e2927aa04d42b1ac805fdee3658292666e3f14ce93229728f60;
  0x1921849d1275ab02f47000633a5963324b3f8a23e2753e468f9fa1e0ca5a070c2610932f2a563f79a973dd0f92751caca2103c34c255dc3edf767facd25a8a923;
  0x1ca5e469f2b241604d03f5a3da960b53b42a502b92b1df1454a1b1076a593db284c61274425645c7d492b3d332751caca1b4d54f3255e5a5260da7ba7a59dc8bc;
  0x1023459272e9cc347010b0d5facd7ecebdd1a02472e95704473c3ee8aa95de35732f234f6292ea604eaf846ac2b1ac805f554e95c2926d81431d7cb71a9666a81;
  0x1c663840f31c39779b342bdeab0004bfb9375c78e31bd34a7338f66d4acd566493da2c9392ca5f1ada28dd9fc2e932cd8b7edb9fc2ca05b2c59a578e1ace00cb8;
  0x1daf2d77c3499640bfb8ccdebb2d51eee84d2546c3492ece8beb7da24affd2704131c20782fcde4ee2805b78a31ba1f461b3686882fc6482cbc4b53d5b005dd48;
  0x1c15a12d6371f4e1775dcc8d7b55a0a99a5f7c502371755a436e7f298b2d2e3f89fcb5def32a35f170bb3652f3490ed4c0e9be74e329ce0aad20d5d41b2dc5611;
  0x161a3c7c139525bf9a6a16f0bb78e8c8affb46df8394b5fa34e476393b5574a22fed096b03527e2343d5567a13714de673da4a92f3521cd7abaa40c21b56177df;
  0x1f4c06f253b347c74068b048fb9710daa9961ddd33b2e8fc18511fdcab78b4fec2d1e3e0b375c038513dfa3343948792601a1ece63754e25932aa7a3fb7947d2f;
  0x1724cab383cc5bf35ad17be98bb02244d579ce52c3cc0418d02ea6c02b96e748cb6037929393f425113c17b1c3b2b4a237a937644393750fd21131d0db976dcd2;
  0x1a24a63e53e05f6155863e5c9bc4279876ba260283e008deb3ebbcf40bb001f147d32ace23ad097669a6fd81c3cbce42ec45b973a3ac8cdf4f9847147bb084505;
  0x113ed217a3ef517199fc657c9bd3254a7e102584b3ef06ce0def194ffbc401c2acd298f943c10c143db13e79c3dfcdef677b220ad3c09427c24e7b448bc488242;
  0x14f3391e93f932760414ba2c1bdd2e72ce22f70633f90f02b07de198dbd2daf41c7690bcd3d001725054e95c93eea995a71b1e53b3cf91011d26e5f8bbd378969;
  0x1a14e3f443fde11bbffbbba5dbe28bb026984be0e3fe628ef09b2d294bdc6bc3af19c8f463d9d39e172fded1c3f845f3f55f141423d99d86608893043bdd5602e;
  0x1938c7889bfcfde338ebc7450be3ded4b65ba22db3ffad0f147c37995bdfa942ac9c7e87c3de6f0d863fc69d33fb7d0e8b0d026fa3df0e80f62443190be20c758;
  0x1757a6e84bfcf59313f067653be13f5c980956d133fd1e2a6b15d667c3e0c92ea6463c448bdd8502640fc32f1bfc99a9136e23eed3e04757af61ae2953e11c849;
  0x1eabd2895bf673cf82cee9cdebda5900286c285c83f63523bbf42d650bdf8d390065917bbbdd7eaac1b21d5963fb63eef4967420b3ddb4a65161ed6543e117e11;
  0x1e96f4d763f673cf82cee9cdebda5900287df2d7c3f63523bbf42d650bd9e10bd43bebb55bd71baa7f19c95f93f5af0b3fec1b3ee3d6d7b462cc0ab423da9ef10;
  0x17485cfe23fcf59313f067653be13f5c97ed5c71a3fd1e2a6b15d667cbd9e10bd437a6bb03d71baa7f8b236d23f5af0b3fec1b3ee3d6d7b4612fdd458bda9ef10;
  0x19afdd1ad3fcfde338ebc744ebe3ded4b67a2aaa93ffad0f147c37995bdf8d38ff85cfe1c3dd7eaac14bb11023fb63eef4967420a3ddb4a6494abc0dabe117e11;
  0x1a21f2d2abfde11bbffbbba5dbe28bb0271d35c6f3fe628ef09b2d2943e0c92ea4811729b3dd85026d13a0edebfc99a9136e23ef03e04757b04b98628be11c849;
  0x14d8afcdfbf932760414ba2c1bdd2e72cdfea19d13f90f02b07de198dbdfa942ac01a5acfbde6f0d87e7698a53fb7d0e8b0d026fc3df0e80f62c226583e20c758;
  0x1146c8cb9bef517199fc657c9bd3254a7e14aaf323ef06ce0def194febdc6bc3af1281905bd9d39e183d1c2553f845f3f55f141433d99d865e2bd9f103dd5602e;
  0x19c3afb58be05f6155863e5c9bc4279876c54becf3e008deb3ebbcf3fbd2daf41c18a9a34bd001724f7f66bd73eea995a71b1e53b3cf910117daf55d73d378969;
  0x16edc7350bcc5bf35ad17be99bb02244d5100c86e3cc0418d02ea6c01bc401c2ad057929fbc10c143e6104f313dfcdef677b220ac3c09427c1e909c253c488242;
  0x1f27083d2bb347c74068b048fb9710daaa0110c753b2e8fc18511fdc9bb001f147b9624bfbad097665770f96f3cbce42ec45b973a3ac8cdf5003eb22c3b084505;
  0x15cfb5efab9525bf9a6a16f0cb78e8c8b007a6d01394b5fa34e476394b96e748cba598f12b93f42511715f2fd3b2b4a237a937644393750fd2f2b4a5d3976dcd2;
  0x1bf5302b5b71f4e1775dcc8d6b55a0a99a02a8cf1371755a436e7f298b78b4fec3145965fb75c0385303956263948792601a1ece63754e2592e8e54fd37947d2f;
  0x1deb94b93b499640bfb8ccdebb2d51eee82e32aaa3492ece8beb7da23b5574a22f7ece581b527e23452f613aa3714de673da4a92e3521cd7a9995ec73356177df;
  0x1c0f9e253b1c39779b342bde9b0004bfb8cf79b8731bd34a7338f66d5b2d2e3f8a629269cb2a35f16f790fa0c3490ed4c0e9be74e329ce0aabc04c9c132dc5611;
  0x10191deabae9cc347010b0d60acd7ecebddd5386f2e95704473c3ee8aaffd270412f0a425afcde4ee4c6c74b431ba1f461b3686872fc6482ccc37e7243005dd48;
  0x1cb7a6942ab241604d03f5a3ca960b53b430cbd112b1df1454a1b1075acd56649405aacb0aca5f1ada952f47f2e932cd8b7edb9fb2ca05b2c6069afc42ce00cb8;
  0x18fdb347ea75ab02f47000633a5963324bb9ed9e82753e468f9fa1e0ba95de357365146d9a92ea604f476d5332b1ac805f554e95c2926d8142d855eaf29666a81;
  0x12a96fa09275ab02f42b1e4cfa57db1ed78389c8b2753e468f6c4a346a593db2848aa7024a5645c7d4a7104412751caca1b4d54f3255e5a5239ed7fd5259dc8bc;
  0x1e312b4152b241604cd01decda94659577c0e89fc2b1df14545468b87a57a8f5eb4b7d04625648f2d42c4d6c52751caca186e9408255ea5e14a9f9cb9a583eb87;
  0x1359e316a2e9cc346fc673fb4acc0006e5b6993782e957044704e983ea943fd524c4ad055292ef250515ead072b1ac805f102ef85292710f1e33bcdd8a94dfbfb;
  0x18ff476a331c39779b019ac47afe5cc8ed4f0e44431bd34a72ed94f24acbc9fe7acf18b4d2ca6284e35c10d272e932cd8b4d5dbbf2ca083e3ebc15116acc577ef;
  0x1f5e5aef83499640bf77440a9b2bc4075aefa28423492ece8bbaa4c4aafe37f5defd1da8c2fce2f59819f511831ba1f4616ffc5732fc67fa4feb143a8afed3f14;
  0x165684b58371f4e1770cffed0b5416ab69e7ee5d2371755a43324500ab2b944ba1f2d77be32a38f502bb365283490ed4c0be0e140329d288e0835cbb1b2c2f39e;
  0x1468f1f0639525bf9a3ab4278b7746e7c6c96992a394b5fa349dcf493b53f271deb425ac235281da91d5567983714de673a46da903521f9cc33d06ca0b5475db3;
  0x1b301bc953b347c74033d02f0b956cfa27d8c0da33b2e8fc18023e7f7b772444b1a3c7c18375c4941d3dfa32939487925fdaf441f375516565a30819cb77b681a;
  0x18632f00b3cc5bf35a995ac42bae844587506fc293cc0418d004b1a7ab9545e705c06f254393f9022d3c17b103b2b4a23762c7f1c39378b090bb18c20b95e94e5;
  0x1aafb2e303e05f61554d8f95bbc28b658fba3f8be3e008deb3c102bfbbae5907ec19780563ad0c0b400d63e7c3cbce42ebfb27ab03ac90bb467fb5d54baf03b5a;
  0x1efb485e73ef517199c5f63c9bd1885063ab2787e3ef06ce0dc4b4630bc258c9957d971843c10eaf994ad812f3dfcdef67309dbb13c09815dd74bc940bc30644f;
  0x12667e13d3f9327603e34a66ebdb9490364841cac3f90f02b05229cf0bd13da7c8ed2179c3d003f33454e95c33eea995a6d6772b33cf94e762b56214dbd1f7bc0;
  0x18a05c9dd3fde11bbfae1f8c9be108a43fce5804a3fe628ef061fb235bdae694c933f09e63d9d82a2d96453773f845f3f52a7f5bb3d9a18bd1e783d37bdbc97bd;
  0x1be31e224bfcfde3389986b0abe2403fa77b69e473ffad0f143700f67bde1c6b8605c9dc93de729f4172f9cfd3fb7d0e8acf8a1eb3df11225bd4ed113be067192;
  0x1888353abbfcf593139f7e1ddbdfab2fdb0c0ca323fd1e2a6ae7acc2a3df31c5058c7888ebdd88cad00fc3302bfc99a9132c0e62c3e04a8694814a10e3df7c943;
  0x1545beac4bf673cf8292ef530bd8cd7b7576e28683f63523bbc24f022bde09aafe7e562aabdd8263635883bfd3fb63eef45d0951b3ddb8e5526569bef3df765fc;
  0x1547834863f673cf8292ef530bd8cd7b75acdc8fb3f63523bbc24f022bd841baf3a70a9dcbd71e6cae9e2fc603f5af0b3fa692a293d6dc4ab31207d2c3d91584c;
  0x18ee40c543fcf593139f7e1debdfab2fdb1348f193fd1e2a6ae7acc2abd841baf33c1a42e3d71e6cadf189d323f5af0b3fa692a283d6dc4aaf4d04c32bd91584c;
  0x1a590e04d3fcfde3389986b0cbe2403fa786e72183ffad0f143700f69bde09aafd72062a13dd8263647ee442c3fb63eef45d0951b3ddb8e556fb28efabdf765fc;
  0x188e31b0cbfde11bbfae1f8c9be108a43fc137d473fe628ef061fb2353df31c5089bc7ecc3dd88cad37a0752abfc99a9132c0e62b3e04a8696c4be415bdf7c943;
  0x123ff26b1bf9327603e34a66ebdb949035bbd8f2b3f90f02b05229cefbde1c6b859ce4f39bde729f45c10323f3fb7d0e8acf8a1ea3df11225c2f56fe93e067192;
  0x1e7f26619bef517199c5f63c9bd1885063b1e2ce33ef06ce0dc4b462fbdae694c9d06ca79bd9d82a35f1e8f213f845f3f52a7f5bc3d9a18bd454534a53dbc97bd;
  0x1a43d204abe05f61554d8f95bbc28b658effb23603e008deb3c102bfbbd13da7c99ea679cbd003f332fa0d23d3eea995a6d6772b43cf94e761a7cd5933d1f7bc0;
  0x1738cba6dbcc5bf35a995ac42bae8445874bb46683cc0418d004b1a7abc258c995367fdb0bc10eaf9bbfd35983dfcdef67309dbb23c09815e22a5866b3c30644f;
  0x1b3597dc1bb347c74033d02f0b956cfa27f58d59e3b2e8fc18023e7f6bae5907ebebaf096bad0c0b3dd3c1ca23cbce42ebfb27ab03ac90bb493a8f85a3af03b5a;
  0x14de6b418b9525bf9a3ab4278b7746e7c5def5551394b5fa349dcf493b9545e705c10d47db93f9022e82ccc643b2b4a23762c7f1c39378b0906f44031395e94e5;
  0x16cf5abf6b71f4e1770cffed0b5416ab69605a19e371755a43324500ab772444b19b071f2b75c4942004b6ae939487925fdaf441f37551656569c6186377b681a;
  0x1fd6dfd89b499640bf77440a9b2bc4075aba366493492ece8bbaa4c4ab53f271dd6763f2eb5281da913dc65f33714de673a46da903521f9cc1514ad2935475db3;
  0x18a4d785eb1c39779b019ac46afe5cc8ed037557531bd34a72ed94f24b2b944ba36c24494b2a38f50379d3e4f3490ed4c0be0e140329d288dfbc8356832c2f39e;
  0x1331441b8ae9cc346fc673fb5acc0006e57f89ae92e957044704e983dafe37f5de06f2fd9afce2f5966074c7a31ba1f4616ffc5732fc67fa4f5f578e22fed3f14;
  0x1e7833e1bab241604cd01decda946595789e706912b1df14545468b86acbc9fe7afafc0edaca6284e3c8637012e932cd8b4d5dbbe2ca083e3d4ee96f92cc577ef;
  0x1261ccf5ea75ab02f42b1e4cfa57db1ed911d4d532753e468f6c4a345a943fd524825b6bca92ef2505add3cf62b1ac805f102ef86292710f1d3a52db6294dfbfb;
  0x1a57a8f5eb69314a7a5648f2d440a9de32751caca186e9408255ea5e172e870772583eb87]%positive.

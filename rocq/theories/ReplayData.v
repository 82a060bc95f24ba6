(** * ReplayData: the messages of the repository's own tests, as written there.

    Made by tools/replay.py from src/processor/tests.rs and other test functions; every definition names the
    file and line. *)
From Verif Require Import Base.
Local Open Scope string_scope.

(** processor/tests.rs:25 *)
Definition test_process__icp_raw : bytes := bstr "{""v"":""KERI10JSON00017e_"",""t"":""icp"",""d"":""ELYk-z-SuTIeDncLr6GhwVUKnv3n3F1bF18qkXNd2bpk"",""i"":""ELYk-z-SuTIeDncLr6GhwVUKnv3n3F1bF18qkXNd2bpk"",""s"":""0"",""kt"":""2"",""k"":[""DSuhyBcPZEZLK-fcw5tzHn2N46wRCG_ZOoeKtWTOunRA"",""DVcuJOOJF1IE8svqEtrSuyQjGTd2HhfAkt9y2QkUtFJI"",""DT1iAhBWCkvChxNWsby2J0pJyxBIxbAtbLA0Ljx-Grh8""],""n"":""E9izzBkXX76sqt0N-tfLzJeRqj0W56p4pDQ_ZqNCDpyw"",""bt"":""0"",""b"":[],""c"":[],""a"":[]}-AADAA39j08U7pcU66OPKsaPExhBuHsL5rO1Pjq5zMgt_X6jRbezevis6YBUg074ZNKAGdUwHLqvPX_kse4buuuSUpAQABphobpuQEZ6EhKLhBuwgJmIQu80ZUV1GhBL0Ht47Hsl1rJiMwE2yW7-yi8k3idw2ahlpgdd9ka9QOP9yQmMWGAQACM7yfK1b86p1H62gonh1C7MECDCFBkoH0NZRjHKAEHebvd2_LLz6cpCaqKWDhbM2Rq01f9pgyDTFNLJMxkC-fAQ".
(** processor/tests.rs:46 *)
Definition test_process__rot_raw : bytes := bstr "{""v"":""KERI10JSON0001b3_"",""t"":""rot"",""d"":""E0UUmo4JsLq9C6LDnerxTjV0PcegpXcPsT_m2J4SeQbE"",""i"":""ELYk-z-SuTIeDncLr6GhwVUKnv3n3F1bF18qkXNd2bpk"",""s"":""1"",""p"":""ELYk-z-SuTIeDncLr6GhwVUKnv3n3F1bF18qkXNd2bpk"",""kt"":""2"",""k"":[""DKPE5eeJRzkRTMOoRGVd2m18o8fLqM2j9kaxLhV3x8AQ"",""D1kcBE7h0ImWW6_Sp7MQxGYSshZZz6XM7OiUE5DXm0dU"",""D4JDgo3WNSUpt-NG14Ni31_GCmrU0r38yo7kgDuyGkQM""],""n"":""EQpRYqbID2rW8X5lB6mOzDckJEIFae6NbJISXgJSN9qg"",""bt"":""0"",""br"":[],""ba"":[],""a"":[]}-AADAATWNmB15NNCgCUeFmDv9HbSkPzZ3hK1oS4DAnBVvA1hSkBm1biGDGPIVRPMLqB_MhAy516DV7B7AQs7eoS5b1DgABOXlDXb4TktNyn_Iindz3GLwRkH_lRo3rfez107T1GfoHFetzbpx3uQExyiuiQM2JRWuHCe3wUFdhzjqQ2_MpAgACVMBC6elfrKOfs2ZQxyXrzkuxNCgpgDBPmstysWo2P6GA2epCGnKwUPq83S_g6RC6oCl9N0-DEWf7tgaD0aTcCg".
(** processor/tests.rs:63 *)
Definition test_process__ixn_raw : bytes := bstr "{""v"":""KERI10JSON0000cb_"",""t"":""ixn"",""d"":""E2R3qlKVg96GqkpGGaIVgjEDy_3Zklm5l0JJaI2g7lqY"",""i"":""ELYk-z-SuTIeDncLr6GhwVUKnv3n3F1bF18qkXNd2bpk"",""s"":""2"",""p"":""E0UUmo4JsLq9C6LDnerxTjV0PcegpXcPsT_m2J4SeQbE"",""a"":[]}-AADAAUHrvRANKmre1dXRNpBeJFTRBouy4Wmj72QHjBrv74JtKBq7_JzYz17A5Kem6wk5IjOi7Q3gtoxQc4a3xDXHkBwABnHvoCVgqyZZxxdVRY74SHItB8IDVK9udSY8eID7m-oktOm6mtRSbazNRq0gsCh0IwzH_-7REtFvO7CO-noQgCwACr7Re0-LgCMTtBpsq5wK7YqwSpqP6-YLu1m9IOQWv5O9zGAp-z6Qbp1x9cpMGrpTEJTHLp2PNtdTzffvztWuBBQ".
(** processor/tests.rs:81 *)
Definition test_process__ixn_raw_2 : bytes := bstr "{""v"":""KERI10JSON0000cb_"",""t"":""ixn"",""d"":""E1dzN2DTAXoC3HsdbUuiGB8nDOCYMeAtAeulBT0ljDgs"",""i"":""ELYk-z-SuTIeDncLr6GhwVUKnv3n3F1bF18qkXNd2bpk"",""s"":""3"",""p"":""E2R3qlKVg96GqkpGGaIVgjEDy_3Zklm5l0JJaI2g7lqY"",""a"":[]}-AADAAMXFghkY_dHBEDE5tHvbPu3NNwYEE8lVyYQrxvpbuXRq50jGOekJ8JoSj-_ysjD6j5Yd6fwS_h92Ie0jP-4epCQAB3CJfe8LDC3FP7RsIt4Weu0ks8IyuqeqJ_g_uko5436TONysurOp76RKisehot0SQBUcFPZ5Yp90XFb5dq661DwACJnPkO6ypAZAEkj7Wn6w0Re0Nym2mvNpxefwANJbRZPoBdAn94nKrxJW9S8jePZ49EBihU8R5j6j7Bc2rMMD7AA".
(** processor/tests.rs:103 *)
Definition test_process__out_of_order_rot_raw : bytes := bstr "{""v"":""KERI10JSON000187_"",""t"":""rot"",""d"":""E5QnF__pQnqFHkHfIjZr4saPnEnzNelDRM9jEENN6WQs"",""i"":""ELYk-z-SuTIeDncLr6GhwVUKnv3n3F1bF18qkXNd2bpk"",""s"":""4"",""p"":""E1dzN2DTAXoC3HsdbUuiGB8nDOCYMeAtAeulBT0ljDgs"",""kt"":""2"",""k"":[""D4JDgo3WNSUpt-NG14Ni31_GCmrU0r38yo7kgDuyGkQM"",""DVjWcaNX2gCkHOjk6rkmqPBCxkRCqwIJ-3OjdYmMwxf4"",""DT1nEDepd6CSAMCE7NY_jlLdG6_mKUlKS_mW-2HJY1hg""],""n"":"""",""bt"":""0"",""br"":[],""ba"":[],""a"":[]}-AADAADjTnTZ5cisTrUXSgnYJpbKoNra2IRRSglzwn2b-WtF99gUixNUIl1KNilQJn0pQlRngPZUKbAxhBgqRvXqWFAgABX0mBBLQ1IMtlzDzEYXDPwztt-ySMFQszQAY7TGSrwzuSMFFA5mBBxxg_muulDClcNAYVt3iKdUodT8N0q-33CwACAyzq3lRXJonJl1X2f9IXBZZiiyIhyetWhNETXjiRbKZKJohfuhSVXsnigwWGscc0S1t_hRTbdB1ijq6fJ4UhBg".
(** processor/tests.rs:141 *)
Definition test_process_receipt__icp_raw : bytes := bstr "{""v"":""KERI10JSON000120_"",""t"":""icp"",""d"":""EsZuhYAPBDnexP3SOl9YsGvWBrYkjYcRjomUYmCcLAYY"",""i"":""EsZuhYAPBDnexP3SOl9YsGvWBrYkjYcRjomUYmCcLAYY"",""s"":""0"",""kt"":""1"",""k"":[""DSuhyBcPZEZLK-fcw5tzHn2N46wRCG_ZOoeKtWTOunRA""],""n"":""EPYuj8mq_PYYsoBKkzX1kxSPGYBWaIya3slgCOyOtlqU"",""bt"":""0"",""b"":[],""c"":[],""a"":[]}-AABAAWKO9bl3OhABTaevxYiXQ1poRIGfM9ndMPq4bvrKmU_3pTN3VLNDYOI8pJBeAQxRtajQn4CSWOqgdGnmeG6fBCQ".
(** processor/tests.rs:148 *)
Definition test_process_receipt__vrc_raw : bytes := bstr "{""v"":""KERI10JSON000091_"",""t"":""rct"",""d"":""EsZuhYAPBDnexP3SOl9YsGvWBrYkjYcRjomUYmCcLAYY"",""i"":""EsZuhYAPBDnexP3SOl9YsGvWBrYkjYcRjomUYmCcLAYY"",""s"":""0""}-FABE7pB5IKuaYh3aIWKxtexyYFhpSjDNTEGSQuxeJbWiylg0AAAAAAAAAAAAAAAAAAAAAAAE7pB5IKuaYh3aIWKxtexyYFhpSjDNTEGSQuxeJbWiylg-AABAAlIts3z2kNyis9l0Pfu54HhVN_yZHEV7NWIVoSTzl5IABelbY8xi7VRyW42ZJvBaaFTGtiqwMOywloVNpG_ZHAQ'".
(** processor/tests.rs:157 *)
Definition test_process_receipt__val_icp_raw : bytes := bstr "{""v"":""KERI10JSON000120_"",""t"":""icp"",""d"":""E7pB5IKuaYh3aIWKxtexyYFhpSjDNTEGSQuxeJbWiylg"",""i"":""E7pB5IKuaYh3aIWKxtexyYFhpSjDNTEGSQuxeJbWiylg"",""s"":""0"",""kt"":""1"",""k"":[""D8KY1sKmgyjAiUDdUBPNPyrSz_ad_Qf9yzhDNZlEKiMc""],""n"":""EOWDAJvex5dZzDxeHBANyaIoUG3F4-ic81G6GwtnC4f4"",""bt"":""0"",""b"":[],""c"":[],""a"":[]}-AABAAsnbd4AkK3mlX2Z3quAfTznEPmFJInT9CE9i0aisswqaSW7QNp6XlPHo3natTevQCmS0H9J4Kb-H_V-BtpqavBA".
(** processor/tests.rs:184 *)
Definition test_process_delegated__bobs_icp : bytes := bstr "{""v"":""KERI10JSON000120_"",""t"":""icp"",""d"":""Et78eYkh8A3H9w6Q87EC5OcijiVEJT8KyNtEGdpPVWV8"",""i"":""Et78eYkh8A3H9w6Q87EC5OcijiVEJT8KyNtEGdpPVWV8"",""s"":""0"",""kt"":""1"",""k"":[""DqI2cOZ06RwGNwCovYUWExmdKU983IasmUKMmZflvWdQ""],""n"":""E7FuL3Z_KBgt_QAwuZi1lUFNC69wvyHSxnMFUsKjZHss"",""bt"":""0"",""b"":[],""c"":[],""a"":[]}-AABAAJEloPu7b4z8v1455StEJ1b7dMIz-P0tKJ_GBBCxQA8JEg0gm8qbS4TWGiHikLoZ2GtLA58l9dzIa2x_otJhoDA".
(** processor/tests.rs:190 *)
Definition test_process_delegated__dip_raw : bytes := bstr "{""v"":""KERI10JSON000154_"",""t"":""dip"",""d"":""Er4bHXd4piEtsQat1mquwsNZXItvuoj_auCUyICmwyXI"",""i"":""Er4bHXd4piEtsQat1mquwsNZXItvuoj_auCUyICmwyXI"",""s"":""0"",""kt"":""1"",""k"":[""DuK1x8ydpucu3480Jpd1XBfjnCwb3dZ3x5b1CJmuUphA""],""n"":""EWWkjZkZDXF74O2bOQ4H5hu4nXDlKg2m4CBEBkUxibiU"",""bt"":""0"",""b"":[],""c"":[],""a"":[],""di"":""Et78eYkh8A3H9w6Q87EC5OcijiVEJT8KyNtEGdpPVWV8""}-AABAA_zcT2-86Zll3FG-hwoQiVuFiT0X28Ft0t4fZGNFISgtZjH2DCrBGoceko604NDZ0QF0Z3bSgEkN_y0lBafD_Bw-GAB0AAAAAAAAAAAAAAAAAAAAAAQE1_-icBrwC_HhxyFwsQLV6hZEbApOc_McGUjhLONpQuc".
(** processor/tests.rs:205 *)
Definition test_process_delegated__bobs_ixn : bytes := bstr "{""v"":""KERI10JSON00013a_"",""t"":""ixn"",""d"":""E1_-icBrwC_HhxyFwsQLV6hZEbApOc_McGUjhLONpQuc"",""i"":""Et78eYkh8A3H9w6Q87EC5OcijiVEJT8KyNtEGdpPVWV8"",""s"":""1"",""p"":""Et78eYkh8A3H9w6Q87EC5OcijiVEJT8KyNtEGdpPVWV8"",""a"":[{""i"":""Er4bHXd4piEtsQat1mquwsNZXItvuoj_auCUyICmwyXI"",""s"":""0"",""d"":""Er4bHXd4piEtsQat1mquwsNZXItvuoj_auCUyICmwyXI""}]}-AABAA6h5mD5stIwO_rwV9apMuhHXjxrKp2ATa35u-H6DM2X-BKo5NkJ1khzBdHo-VLQ6Zw_yajj2Ul_WOL8pFSk_ZDg".
(** processor/tests.rs:240 *)
Definition test_process_delegated__bob_ixn : bytes := bstr "{""v"":""KERI10JSON00013a_"",""t"":""ixn"",""d"":""Eq-MPVuYTPXNUlQSHKfnPhiV3rWo7hkkLa7ui67OIG68"",""i"":""Et78eYkh8A3H9w6Q87EC5OcijiVEJT8KyNtEGdpPVWV8"",""s"":""2"",""p"":""E1_-icBrwC_HhxyFwsQLV6hZEbApOc_McGUjhLONpQuc"",""a"":[{""i"":""Er4bHXd4piEtsQat1mquwsNZXItvuoj_auCUyICmwyXI"",""s"":""1"",""d"":""ELEnIYF_rAsluR9TI_jh5Dizq61dCXjos22AGN0hiVjw""}]}-AABAA-QDEYYQCDtosLkziTAaWTu3mfVdFUxa8tytwQVohRwBJEhefCIaCDIbFhrrEn17KMwGoOJKBrJ7Da4WqeWbtAA".
(** processor/tests.rs:245 *)
Definition test_process_delegated__drt_raw : bytes := bstr "{""v"":""KERI10JSON000155_"",""t"":""drt"",""d"":""ELEnIYF_rAsluR9TI_jh5Dizq61dCXjos22AGN0hiVjw"",""i"":""Er4bHXd4piEtsQat1mquwsNZXItvuoj_auCUyICmwyXI"",""s"":""1"",""p"":""Er4bHXd4piEtsQat1mquwsNZXItvuoj_auCUyICmwyXI"",""kt"":""1"",""k"":[""DTf6QZWoet154o9wvzeMuNhLQRr8JaAUeiC6wjB_4_08""],""n"":""E8kyiXDfkE7idwWnAZQjHbUZMz-kd_yIMH0miptIFFPo"",""bt"":""0"",""br"":[],""ba"":[],""a"":[]}-AABAAer7S2mRuHlXxmJxy6E5lgdBmh3eeKd2TnkyivHlEw83Xhq98h6RBjXRDc_S0Z-TrLUS2u-6FnIkP_yYsOeH0Dg-GAB0AAAAAAAAAAAAAAAAAAAAAAgEq-MPVuYTPXNUlQSHKfnPhiV3rWo7hkkLa7ui67OIG68".
(** processor/tests.rs:292 *)
Definition test_validate_seal__delegator_icp_raw : bytes := bstr "{""v"":""KERI10JSON000120_"",""t"":""icp"",""d"":""Et78eYkh8A3H9w6Q87EC5OcijiVEJT8KyNtEGdpPVWV8"",""i"":""Et78eYkh8A3H9w6Q87EC5OcijiVEJT8KyNtEGdpPVWV8"",""s"":""0"",""kt"":""1"",""k"":[""DqI2cOZ06RwGNwCovYUWExmdKU983IasmUKMmZflvWdQ""],""n"":""E7FuL3Z_KBgt_QAwuZi1lUFNC69wvyHSxnMFUsKjZHss"",""bt"":""0"",""b"":[],""c"":[],""a"":[]}-AABAAJEloPu7b4z8v1455StEJ1b7dMIz-P0tKJ_GBBCxQA8JEg0gm8qbS4TWGiHikLoZ2GtLA58l9dzIa2x_otJhoDA".
(** processor/tests.rs:299 *)
Definition test_validate_seal__dip_raw : bytes := bstr "{""v"":""KERI10JSON000154_"",""t"":""dip"",""d"":""Er4bHXd4piEtsQat1mquwsNZXItvuoj_auCUyICmwyXI"",""i"":""Er4bHXd4piEtsQat1mquwsNZXItvuoj_auCUyICmwyXI"",""s"":""0"",""kt"":""1"",""k"":[""DuK1x8ydpucu3480Jpd1XBfjnCwb3dZ3x5b1CJmuUphA""],""n"":""EWWkjZkZDXF74O2bOQ4H5hu4nXDlKg2m4CBEBkUxibiU"",""bt"":""0"",""b"":[],""c"":[],""a"":[],""di"":""Et78eYkh8A3H9w6Q87EC5OcijiVEJT8KyNtEGdpPVWV8""}-AABAA_zcT2-86Zll3FG-hwoQiVuFiT0X28Ft0t4fZGNFISgtZjH2DCrBGoceko604NDZ0QF0Z3bSgEkN_y0lBafD_Bw-GAB0AAAAAAAAAAAAAAAAAAAAAAQE1_-icBrwC_HhxyFwsQLV6hZEbApOc_McGUjhLONpQuc".
(** processor/tests.rs:318 *)
Definition test_validate_seal__delegating_event_raw : bytes := bstr "{""v"":""KERI10JSON00013a_"",""t"":""ixn"",""d"":""E1_-icBrwC_HhxyFwsQLV6hZEbApOc_McGUjhLONpQuc"",""i"":""Et78eYkh8A3H9w6Q87EC5OcijiVEJT8KyNtEGdpPVWV8"",""s"":""1"",""p"":""Et78eYkh8A3H9w6Q87EC5OcijiVEJT8KyNtEGdpPVWV8"",""a"":[{""i"":""Er4bHXd4piEtsQat1mquwsNZXItvuoj_auCUyICmwyXI"",""s"":""0"",""d"":""Er4bHXd4piEtsQat1mquwsNZXItvuoj_auCUyICmwyXI""}]}-AABAA6h5mD5stIwO_rwV9apMuhHXjxrKp2ATa35u-H6DM2X-BKo5NkJ1khzBdHo-VLQ6Zw_yajj2Ul_WOL8pFSk_ZDg".
(** processor/tests.rs:343 *)
Definition test_compute_state_at_sn__kerl_str : bytes := bstr "{""v"":""KERI10JSON000120_"",""t"":""icp"",""d"":""EFM_0I1yFtoKJPy8L9QCN9ZBHHR-qIBSxSwHZG6uljqc"",""i"":""Ddhxr2UX8Xl55KvOd20cBYjj5QSCVqTiINgA_VJQul30"",""s"":""0"",""kt"":""1"",""k"":[""Ddhxr2UX8Xl55KvOd20cBYjj5QSCVqTiINgA_VJQul30""],""n"":""ESY1L4c7pxgQBuq76wUjwLdOWVfX8XLfi4unqjzBs3A4"",""bt"":""0"",""b"":[],""c"":[],""a"":[]}-AABAAqVXfmQsyme65lXrnUdx701IClRnO14wvdP00-CnTyYHetVUQEpWCS787bSNWlPG9HnroeEzfuM7ZhzM5VRCQDw{""v"":""KERI10JSON000155_"",""t"":""rot"",""d"":""EI_rE4U5HPnLtJ-kNRBZKyTzw9dYq0yffywEoGEZZE0E"",""i"":""Ddhxr2UX8Xl55KvOd20cBYjj5QSCVqTiINgA_VJQul30"",""s"":""1"",""p"":""EFM_0I1yFtoKJPy8L9QCN9ZBHHR-qIBSxSwHZG6uljqc"",""kt"":""1"",""k"":[""DhSM7Cy_qC1y7jmmIu8A3lYedssBAVpHKJDfVbUXo_Nc""],""n"":""EAMjC1FxUcVlPHFBcgMOTjLmlRsRNkHtXzUTFD5VaaU4"",""bt"":""0"",""br"":[],""ba"":[],""a"":[]}-AABAA6TMhDKzjpD574-xzs0A0VwD5x_VzcYcK0y9h_ttkVYQOQlocK4QpsV2kHbAHptKQg74tZxxcKuiqDg1SO9MTAA{""v"":""KERI10JSON0000cb_"",""t"":""ixn"",""d"":""EeAgPgw8ewxtbE0zVRB92K5bLC_nmVQBgA9Ajz7TPTg0"",""i"":""Ddhxr2UX8Xl55KvOd20cBYjj5QSCVqTiINgA_VJQul30"",""s"":""2"",""p"":""EI_rE4U5HPnLtJ-kNRBZKyTzw9dYq0yffywEoGEZZE0E"",""a"":[]}-AABAArJjuMeasjy7gcTSZrDaVa8shiYoH4syJPXPZQMRLyaxCBFFynsWVyWrq-ZJFoWJETyX3Hi5U7AmPfWZsZfaaCw{""v"":""KERI10JSON000155_"",""t"":""rot"",""d"":""E7YSxhPZMwGRxIP4E1POsqS7gK9jO00cE0IOr002lVPI"",""i"":""Ddhxr2UX8Xl55KvOd20cBYjj5QSCVqTiINgA_VJQul30"",""s"":""3"",""p"":""EeAgPgw8ewxtbE0zVRB92K5bLC_nmVQBgA9Ajz7TPTg0"",""kt"":""1"",""k"":[""D4cFZmRliumCFW5RnHvDFYCRTvNvuGMLWO1CqTaNEZZI""],""n"":""Ew9LxnzhZHC6wri0dFdC5OQ_uhpAaO-wjbMtdt5ld0HQ"",""bt"":""0"",""br"":[],""ba"":[],""a"":[]}-AABAAWaOtr_k3Jk0GQn39Pc7WoZEcpeZk1m5yMScDq0yp5L4biNkSnyOA7AYO5G2n-HxZ3lM2IGeTLwN4XAdyVxRrBg{""v"":""KERI10JSON000155_"",""t"":""rot"",""d"":""E6OMBom_RgVCE7paXEvdUBzg2rt6QRmEQ2q7Dq4FOG9o"",""i"":""Ddhxr2UX8Xl55KvOd20cBYjj5QSCVqTiINgA_VJQul30"",""s"":""4"",""p"":""E7YSxhPZMwGRxIP4E1POsqS7gK9jO00cE0IOr002lVPI"",""kt"":""1"",""k"":[""Dnljgftiq3x7IuF4mmMYfOzWoMNh98QDCdEU2bRSqUAQ""],""n"":""EnlyNgrbZhysJ8mxSxoVuVv9QBAcB25RtVmm2A7yW7oY"",""bt"":""0"",""br"":[],""ba"":[],""a"":[]}-AABAApnOXmrsbhdRUHEg-x9CqeVKQdJIau0fTnQ8WT2uv1ueUwj7zMfWstZYEpRPkc9DAg5XqRKyMVOR2kq4sjAIpAQ{""v"":""KERI10JSON0000cb_"",""t"":""ixn"",""d"":""ECpHwQLdPSwHBGR_QAXhlyzwyB-z8vNYuVRtTWak5kQw"",""i"":""Ddhxr2UX8Xl55KvOd20cBYjj5QSCVqTiINgA_VJQul30"",""s"":""5"",""p"":""E6OMBom_RgVCE7paXEvdUBzg2rt6QRmEQ2q7Dq4FOG9o"",""a"":[]}-AABAAwj0JqH6ae5vCOCxiAWmA_FKzM1g7ydxQpfgQio0Yj2DhOPKBU8kdUh0zAM2n6qi32diaJHYM15nm62Re1sK7CQ".
(** processor/tests.rs:384 *)
Definition test_reply_escrow__kel : bytes := bstr "{""v"":""KERI10JSON000120_"",""t"":""icp"",""d"":""Et78eYkh8A3H9w6Q87EC5OcijiVEJT8KyNtEGdpPVWV8"",""i"":""Et78eYkh8A3H9w6Q87EC5OcijiVEJT8KyNtEGdpPVWV8"",""s"":""0"",""kt"":""1"",""k"":[""DqI2cOZ06RwGNwCovYUWExmdKU983IasmUKMmZflvWdQ""],""n"":""E7FuL3Z_KBgt_QAwuZi1lUFNC69wvyHSxnMFUsKjZHss"",""bt"":""0"",""b"":[],""c"":[],""a"":[]}-AABAAJEloPu7b4z8v1455StEJ1b7dMIz-P0tKJ_GBBCxQA8JEg0gm8qbS4TWGiHikLoZ2GtLA58l9dzIa2x_otJhoDA{""v"":""KERI10JSON000155_"",""t"":""rot"",""d"":""EoU_JzojCvenHLPza5-K7z59yU7efQVrzciNdXoVDmlk"",""i"":""Et78eYkh8A3H9w6Q87EC5OcijiVEJT8KyNtEGdpPVWV8"",""s"":""1"",""p"":""Et78eYkh8A3H9w6Q87EC5OcijiVEJT8KyNtEGdpPVWV8"",""kt"":""1"",""k"":[""Dyb48eeVVXD7JAarHFAUffKcgYGvCQ4KWX00myzNLgzU""],""n"":""ElBleBp2wS0n927E6W63imv-lRzU10uLYTRKzHNn19IQ"",""bt"":""0"",""br"":[],""ba"":[],""a"":[]}-AABAAXcEQQlT3id8LpTRDkFKVzF7n0d0w-3n__xgdf7rxTpAWUVsHthZcPtovCVr1kca1MD9QbfFAMpEtUZ02LTi3AQ{""v"":""KERI10JSON000155_"",""t"":""rot"",""d"":""EYhzp9WCvSNFT2dVryQpVFiTzuWGbFNhVHNKCqAqBI8A"",""i"":""Et78eYkh8A3H9w6Q87EC5OcijiVEJT8KyNtEGdpPVWV8"",""s"":""2"",""p"":""EoU_JzojCvenHLPza5-K7z59yU7efQVrzciNdXoVDmlk"",""kt"":""1"",""k"":[""DyN13SKiF1FsVoVR5C4r_15JJLUBxBXBmkleD5AYWplc""],""n"":""Em4tcl6gRcT2OLjbON4iz-fsw0iWQGBtwWic0dJY4Gzo"",""bt"":""0"",""br"":[],""ba"":[],""a"":[]}-AABAAZgqx0nZk4y2NyxPGypIloZikDzaZMw8EwjisexXwn-nr08jdILP6wvMOKZcxmCbAHJ4kHL_SIugdB-_tEvhBDg{""v"":""KERI10JSON000155_"",""t"":""rot"",""d"":""EsL4LnyvTGBqdYC_Ute3ag4XYbu8PdCj70un885pMYpA"",""i"":""Et78eYkh8A3H9w6Q87EC5OcijiVEJT8KyNtEGdpPVWV8"",""s"":""3"",""p"":""EYhzp9WCvSNFT2dVryQpVFiTzuWGbFNhVHNKCqAqBI8A"",""kt"":""1"",""k"":[""DrcAz_gmDTuWIHn_mOQDeSK_aJIRiw5IMzPD7igzEDb0""],""n"":""E_Y2NMHE0nqrTQLe57VPcM0razmxdxRVbljRCSetdjjI"",""bt"":""0"",""br"":[],""ba"":[],""a"":[]}-AABAAkk_Z4jS76LBiKrTs8tL32DNMndq5UQJ-NoteiTyOuMZfyP8jgxJQU7AiR7zWQZxzmiF0mT1JureItwDkPli5DA".
(** processor/tests.rs:388 *)
Definition test_reply_escrow__rest_of_kel : bytes := bstr "{""v"":""KERI10JSON000155_"",""t"":""rot"",""d"":""EChhtlv3ZbdRHk6UKxP2l6Uj1kPmloV4hSjvn7480Sks"",""i"":""Et78eYkh8A3H9w6Q87EC5OcijiVEJT8KyNtEGdpPVWV8"",""s"":""4"",""p"":""EsL4LnyvTGBqdYC_Ute3ag4XYbu8PdCj70un885pMYpA"",""kt"":""1"",""k"":[""DcJ_93nB6lFRiuTCKLsP0P-LH2bxgnW7pzsp_i8KEHb4""],""n"":""Ej3cpXIF_K6ZFnuoRn2sDz26O1YQzTqYhCpac4Lk7oo4"",""bt"":""0"",""br"":[],""ba"":[],""a"":[]}-AABAAEk-XVyuGkGtfC6MFUiSsk4o4eWGw-cBKhmZOV3DOy8b2tUB-4t6jY15vo26mn8tauvADPs321xkjX9rNBkhlCw{""v"":""KERI10JSON000155_"",""t"":""rot"",""d"":""EfARz_ZQsxvwinu5iJ5ry0OQW8z-kSw0ULYi-EXidRpk"",""i"":""Et78eYkh8A3H9w6Q87EC5OcijiVEJT8KyNtEGdpPVWV8"",""s"":""5"",""p"":""EChhtlv3ZbdRHk6UKxP2l6Uj1kPmloV4hSjvn7480Sks"",""kt"":""1"",""k"":[""Dw4Woc1Nto6vNe_oezp3Tw13-YujvCIf7zzy8Ua0VaZU""],""n"":""EoKxnsSwdrZK9BSDKV0Am-inFCVwc0dQoco8ykRBNcbE"",""bt"":""0"",""br"":[],""ba"":[],""a"":[]}-AABAA-6rxkCizrb1fbMWzHAMbiyYqnPUBg_d6lN9Gzla49SZ9eHgxOjRxCE34N0FDObX9UuBGNLO7pIh59OMMtwKdDQ{""v"":""KERI10JSON000155_"",""t"":""rot"",""d"":""EJyIhOR7NJjQuV_N6WsQ_qqZc5f09vVwqVnIbuiWxuFs"",""i"":""Et78eYkh8A3H9w6Q87EC5OcijiVEJT8KyNtEGdpPVWV8"",""s"":""6"",""p"":""EfARz_ZQsxvwinu5iJ5ry0OQW8z-kSw0ULYi-EXidRpk"",""kt"":""1"",""k"":[""DjGxCjRAVaFiVffhQcPDf04bicivm2TL1LknCL3ujv50""],""n"":""EE2EIFJ_RB8iHHWGdFVwxWUYOVryS9_0i-boEELGvg5U"",""bt"":""0"",""br"":[],""ba"":[],""a"":[]}-AABAAXVtZlgCbE7u5KwWe7Hmlv3NCCkVmccQUemIKand3AcYkoxQvS0KPn5WmlQjdLk6RyVCaK2enGqqeFMSOc01_Cg{""v"":""KERI10JSON000155_"",""t"":""rot"",""d"":""EXWLIEK40fQjeYCri1Iy8sQxZzWnJdj1pHPkDBMaodoE"",""i"":""Et78eYkh8A3H9w6Q87EC5OcijiVEJT8KyNtEGdpPVWV8"",""s"":""7"",""p"":""EJyIhOR7NJjQuV_N6WsQ_qqZc5f09vVwqVnIbuiWxuFs"",""kt"":""1"",""k"":[""DwTncFFLkqdfOx9ipPwjYMJ-Xqcw6uVgE38WbfAiH0zQ""],""n"":""EZt3rYIvWZ3WuVankOuW34wSifHNx9tUjdaUImARVCyU"",""bt"":""0"",""br"":[],""ba"":[],""a"":[]}-AABAA8penO_Nr-KVvQyhDXK8KAWQfh1qoeDGNwCJ7fLmrYQ0Yx84Uh_vHX0kj41AYelgK0aNrHbaewBVqsASQsSBBDA{""v"":""KERI10JSON000155_"",""t"":""rot"",""d"":""EArexnxpGFZv4BnXzj59FrFTxCUEU1Aq3Co2iP7tA5aA"",""i"":""Et78eYkh8A3H9w6Q87EC5OcijiVEJT8KyNtEGdpPVWV8"",""s"":""8"",""p"":""EXWLIEK40fQjeYCri1Iy8sQxZzWnJdj1pHPkDBMaodoE"",""kt"":""1"",""k"":[""DOedRyfIQe4Z-GNSlbgA8txIKyx4Li2tJ1S0Yhy7l2T8""],""n"":""EuiVoq5iFTwRutHDNJHbIY43bBj3EKmk7_lmZJdPj-PU"",""bt"":""0"",""br"":[],""ba"":[],""a"":[]}-AABAAkZNVe95o9nSNSP6ck_khDy1tfKJUzu430vAi_p6fEMqVzJB4yqa2fdRBJmqwbq5gPOHwd0bE_JcbTrgnVFAQBQ".
(** processor/tests.rs:392 *)
Definition test_reply_escrow__old_rpy : bytes := bstr "{""v"":""KERI10JSON000292_"",""t"":""rpy"",""d"":""E_v_Syz2Bhh1WCKx9GBSpU4g9FqqxtSNPI_M2KgMC1yI"",""dt"":""2021-01-01T00:00:00.000000+00:00"",""r"":""/ksn/Et78eYkh8A3H9w6Q87EC5OcijiVEJT8KyNtEGdpPVWV8"",""a"":{""v"":""KERI10JSON0001d7_"",""i"":""Et78eYkh8A3H9w6Q87EC5OcijiVEJT8KyNtEGdpPVWV8"",""s"":""3"",""p"":""EYhzp9WCvSNFT2dVryQpVFiTzuWGbFNhVHNKCqAqBI8A"",""d"":""EsL4LnyvTGBqdYC_Ute3ag4XYbu8PdCj70un885pMYpA"",""f"":""3"",""dt"":""2021-01-01T00:00:00.000000+00:00"",""et"":""rot"",""kt"":""1"",""k"":[""DrcAz_gmDTuWIHn_mOQDeSK_aJIRiw5IMzPD7igzEDb0""],""n"":""E_Y2NMHE0nqrTQLe57VPcM0razmxdxRVbljRCSetdjjI"",""bt"":""0"",""b"":[],""c"":[],""ee"":{""s"":""3"",""d"":""EsL4LnyvTGBqdYC_Ute3ag4XYbu8PdCj70un885pMYpA"",""br"":[],""ba"":[]}}}-FABEt78eYkh8A3H9w6Q87EC5OcijiVEJT8KyNtEGdpPVWV80AAAAAAAAAAAAAAAAAAAAAAwEsL4LnyvTGBqdYC_Ute3ag4XYbu8PdCj70un885pMYpA-AABAAycUrU33S2856nVTuKNbxmGzDwkR9XYY5cXGnpyz4NZsrvt8AdOxfQfYcRCr_URFU9UrEsLFIFJEPoiUEuTbcCg".
(** processor/tests.rs:396 *)
Definition test_reply_escrow__new_rpy : bytes := bstr "{""v"":""KERI10JSON000292_"",""t"":""rpy"",""d"":""ECMNs09Snruv7bRpgUGgwflF3ZIpby7_m3jgjdIXJRno"",""dt"":""2021-01-01T00:00:00.000000+00:00"",""r"":""/ksn/Et78eYkh8A3H9w6Q87EC5OcijiVEJT8KyNtEGdpPVWV8"",""a"":{""v"":""KERI10JSON0001d7_"",""i"":""Et78eYkh8A3H9w6Q87EC5OcijiVEJT8KyNtEGdpPVWV8"",""s"":""8"",""p"":""EXWLIEK40fQjeYCri1Iy8sQxZzWnJdj1pHPkDBMaodoE"",""d"":""EArexnxpGFZv4BnXzj59FrFTxCUEU1Aq3Co2iP7tA5aA"",""f"":""8"",""dt"":""2021-01-01T00:00:00.000000+00:00"",""et"":""rot"",""kt"":""1"",""k"":[""DOedRyfIQe4Z-GNSlbgA8txIKyx4Li2tJ1S0Yhy7l2T8""],""n"":""EuiVoq5iFTwRutHDNJHbIY43bBj3EKmk7_lmZJdPj-PU"",""bt"":""0"",""b"":[],""c"":[],""ee"":{""s"":""8"",""d"":""EArexnxpGFZv4BnXzj59FrFTxCUEU1Aq3Co2iP7tA5aA"",""br"":[],""ba"":[]}}}-VA0-FABEt78eYkh8A3H9w6Q87EC5OcijiVEJT8KyNtEGdpPVWV80AAAAAAAAAAAAAAAAAAAAACAEArexnxpGFZv4BnXzj59FrFTxCUEU1Aq3Co2iP7tA5aA-AABAA0o_SfwLPA1gA7pZxogj56Dx-n5xELQb0_Nghp7TTQh9-CIOfGQKGHk1FGQm-qRsLPQUEVya7SGKTH0QQjd6uCg".
(** processor/tests.rs:473 *)
Definition test_query__icp_str : bytes := bstr "{""v"":""KERI10JSON0001ac_"",""t"":""icp"",""d"":""ESZVhKqI9F_UGQAQRYGNwqqdKOMjez7aupox9UZwZcBk"",""i"":""ESZVhKqI9F_UGQAQRYGNwqqdKOMjez7aupox9UZwZcBk"",""s"":""0"",""kt"":""1"",""k"":[""DxH8nLaGIMllBp0mvGdN6JtbNuGRPyHb5i80bTojnP9A""],""n"":""EmJ-3Y0pM0ogX8401rEziJhpql567YEdHDlylwfnxNIM"",""bt"":""3"",""b"":[""BGKVzj4ve0VSd8z_AmvhLg4lqcC_9WYX90k03q-R_Ydo"",""BuyRFMideczFZoapylLIyCjSdhtqVb31wZkRKvPfNqkw"",""Bgoq68HCmYNUDgOz4Skvlu306o_NY-NrYuKAVhk3Zh9c""],""c"":[],""a"":[]}-AABAAGwlsKbtQjGUoKlYsBRksx5KmAiXWtNakJkxmxizV0aoN4d_GwtmnbNwpuuggc3CmoftruHIo_Q9CbWw-lUitDA".
(** processor/tests.rs:478 *)
Definition test_query__qry_str : bytes := bstr "{""v"":""KERI10JSON0000c9_"",""t"":""qry"",""d"":""EEFpGGlsAGe51BgyebzDUAs4ewWYz1HO9rytYVaxDo3c"",""dt"":""2022-01-13T15:53:32.020709+00:00"",""r"":""ksn"",""rr"":"""",""q"":{""i"":""ESZVhKqI9F_UGQAQRYGNwqqdKOMjez7aupox9UZwZcBk""}}-VAj-HABESZVhKqI9F_UGQAQRYGNwqqdKOMjez7aupox9UZwZcBk-AABAAMOLeXG1ClCtSPP4hhtvyoWMLOvMvaiveHCepL3zh1OQcAyn2GzEh2TwjKFyKFGBXD6-blmvg8M8hDMr-yjv6Bw".
(** event_parsing/message.rs:151 *)
Definition test_version_parse__json__151 : bytes := bstr """KERI10JSON00014b_""".
(** event_parsing/message.rs:159 *)
Definition test_signed_event__stream__159 : bytes := bstr "{""v"":""KERI10JSON00017e_"",""t"":""icp"",""d"":""ELYk-z-SuTIeDncLr6GhwVUKnv3n3F1bF18qkXNd2bpk"",""i"":""ELYk-z-SuTIeDncLr6GhwVUKnv3n3F1bF18qkXNd2bpk"",""s"":""0"",""kt"":""2"",""k"":[""DSuhyBcPZEZLK-fcw5tzHn2N46wRCG_ZOoeKtWTOunRA"",""DVcuJOOJF1IE8svqEtrSuyQjGTd2HhfAkt9y2QkUtFJI"",""DT1iAhBWCkvChxNWsby2J0pJyxBIxbAtbLA0Ljx-Grh8""],""n"":""E9izzBkXX76sqt0N-tfLzJeRqj0W56p4pDQ_ZqNCDpyw"",""bt"":""0"",""b"":[],""c"":[],""a"":[]}-AADAA39j08U7pcU66OPKsaPExhBuHsL5rO1Pjq5zMgt_X6jRbezevis6YBUg074ZNKAGdUwHLqvPX_kse4buuuSUpAQABphobpuQEZ6EhKLhBuwgJmIQu80ZUV1GhBL0Ht47Hsl1rJiMwE2yW7-yi8k3idw2ahlpgdd9ka9QOP9yQmMWGAQACM7yfK1b86p1H62gonh1C7MECDCFBkoH0NZRjHKAEHebvd2_LLz6cpCaqKWDhbM2Rq01f9pgyDTFNLJMxkC-fAQ".
(** event_parsing/message.rs:167 *)
Definition test_key_event_parsing__stream__167 : bytes := bstr "{""v"":""KERI10JSON000120_"",""t"":""icp"",""d"":""Et78eYkh8A3H9w6Q87EC5OcijiVEJT8KyNtEGdpPVWV8"",""i"":""Et78eYkh8A3H9w6Q87EC5OcijiVEJT8KyNtEGdpPVWV8"",""s"":""0"",""kt"":""1"",""k"":[""DqI2cOZ06RwGNwCovYUWExmdKU983IasmUKMmZflvWdQ""],""n"":""E7FuL3Z_KBgt_QAwuZi1lUFNC69wvyHSxnMFUsKjZHss"",""bt"":""0"",""b"":[],""c"":[],""a"":[]}".
(** event_parsing/message.rs:173 *)
Definition test_key_event_parsing__stream__173 : bytes := bstr "{""v"":""KERI10JSON000155_"",""t"":""rot"",""d"":""EAntLipNnDDcGAJfGz9TStcJ8M19YLji3LPNVpXalwv4"",""i"":""DWzwEHHzq7K0gzQPYGGwTmuupUhPx5_yZ-Wk1x4ejhcc"",""s"":""1"",""p"":""EO4Z11IVb8w4dUs4cGqYtp53dYKIV8j-mORGJ7wOdSN8"",""kt"":""1"",""k"":[""DHgZa-u7veNZkqk2AxCnxrINGKfQ0bRiaf9FdA_-_49A""],""n"":""EAXTvbATMnVRGjyC_VCNuXcPTxxpLanfzj14u3QMsD_U"",""bt"":""0"",""br"":[],""ba"":[],""a"":[]}".
(** event_parsing/message.rs:180 *)
Definition test_key_event_parsing__stream__180 : bytes := bstr "{""v"":""KERI10JSON0000cb_"",""t"":""ixn"",""d"":""E4hrx06bab0CN3rZoT-9NMtidfOH8PnIP0IvqsuUQOZ0"",""i"":""DWzwEHHzq7K0gzQPYGGwTmuupUhPx5_yZ-Wk1x4ejhcc"",""s"":""2"",""p"":""EAntLipNnDDcGAJfGz9TStcJ8M19YLji3LPNVpXalwv4"",""a"":[]}".
(** event_parsing/message.rs:186 *)
Definition test_key_event_parsing__stream__186 : bytes := bstr "{""v"":""KERI10JSON00013a_"",""t"":""ixn"",""d"":""E1_-icBrwC_HhxyFwsQLV6hZEbApOc_McGUjhLONpQuc"",""i"":""Et78eYkh8A3H9w6Q87EC5OcijiVEJT8KyNtEGdpPVWV8"",""s"":""1"",""p"":""Et78eYkh8A3H9w6Q87EC5OcijiVEJT8KyNtEGdpPVWV8"",""a"":[{""i"":""Er4bHXd4piEtsQat1mquwsNZXItvuoj_auCUyICmwyXI"",""s"":""0"",""d"":""Er4bHXd4piEtsQat1mquwsNZXItvuoj_auCUyICmwyXI""}]}".
(** event_parsing/message.rs:192 *)
Definition test_key_event_parsing__stream__192 : bytes := bstr "{""v"":""KERI10JSON000154_"",""t"":""dip"",""d"":""Er4bHXd4piEtsQat1mquwsNZXItvuoj_auCUyICmwyXI"",""i"":""Er4bHXd4piEtsQat1mquwsNZXItvuoj_auCUyICmwyXI"",""s"":""0"",""kt"":""1"",""k"":[""DuK1x8ydpucu3480Jpd1XBfjnCwb3dZ3x5b1CJmuUphA""],""n"":""EWWkjZkZDXF74O2bOQ4H5hu4nXDlKg2m4CBEBkUxibiU"",""bt"":""0"",""b"":[],""c"":[],""a"":[],""di"":""Et78eYkh8A3H9w6Q87EC5OcijiVEJT8KyNtEGdpPVWV8""}".
(** event_parsing/message.rs:197 *)
Definition test_key_event_parsing__stream__197 : bytes := bstr "{""v"":""KERI10JSON000155_"",""t"":""drt"",""d"":""ELEnIYF_rAsluR9TI_jh5Dizq61dCXjos22AGN0hiVjw"",""i"":""Er4bHXd4piEtsQat1mquwsNZXItvuoj_auCUyICmwyXI"",""s"":""1"",""p"":""Er4bHXd4piEtsQat1mquwsNZXItvuoj_auCUyICmwyXI"",""kt"":""1"",""k"":[""DTf6QZWoet154o9wvzeMuNhLQRr8JaAUeiC6wjB_4_08""],""n"":""E8kyiXDfkE7idwWnAZQjHbUZMz-kd_yIMH0miptIFFPo"",""bt"":""0"",""br"":[],""ba"":[],""a"":[]}".
(** event_parsing/message.rs:206 *)
Definition test_receipt_parsing__stream__206 : bytes := bstr "{""v"":""KERI10JSON000091_"",""t"":""rct"",""d"":""EsZuhYAPBDnexP3SOl9YsGvWBrYkjYcRjomUYmCcLAYY"",""i"":""EsZuhYAPBDnexP3SOl9YsGvWBrYkjYcRjomUYmCcLAYY"",""s"":""0""}".
(** event_parsing/message.rs:216 *)
Definition test_qry__qry_event__216 : bytes := bstr "{""v"":""KERI10JSON0000c9_"",""t"":""qry"",""d"":""E-WvgxrllmjGFhpn0oOiBkAVz3-dEm3bbiV_5qwj81xo"",""dt"":""2021-01-01T00:00:00.000000+00:00"",""r"":""log"",""rr"":"""",""q"":{""i"":""DyvCLRr5luWmp7keDvDuLP0kIqcyBYq79b3Dho1QvrjI""}}".
(** event_parsing/message.rs:228 *)
Definition test_reply__rpy__228 : bytes := bstr "{""v"":""KERI10JSON000292_"",""t"":""rpy"",""d"":""E_v_Syz2Bhh1WCKx9GBSpU4g9FqqxtSNPI_M2KgMC1yI"",""dt"":""2021-01-01T00:00:00.000000+00:00"",""r"":""/ksn/Et78eYkh8A3H9w6Q87EC5OcijiVEJT8KyNtEGdpPVWV8"",""a"":{""v"":""KERI10JSON0001d7_"",""i"":""Et78eYkh8A3H9w6Q87EC5OcijiVEJT8KyNtEGdpPVWV8"",""s"":""3"",""p"":""EYhzp9WCvSNFT2dVryQpVFiTzuWGbFNhVHNKCqAqBI8A"",""d"":""EsL4LnyvTGBqdYC_Ute3ag4XYbu8PdCj70un885pMYpA"",""f"":""3"",""dt"":""2021-01-01T00:00:00.000000+00:00"",""et"":""rot"",""kt"":""1"",""k"":[""DrcAz_gmDTuWIHn_mOQDeSK_aJIRiw5IMzPD7igzEDb0""],""n"":""E_Y2NMHE0nqrTQLe57VPcM0razmxdxRVbljRCSetdjjI"",""bt"":""0"",""b"":[],""c"":[],""ee"":{""s"":""3"",""d"":""EsL4LnyvTGBqdYC_Ute3ag4XYbu8PdCj70un885pMYpA"",""br"":[],""ba"":[]}}}".
(** event_parsing/message.rs:242 *)
Definition test_signed_qry__stream__242 : bytes := bstr "{""v"":""KERI10JSON0000c9_"",""t"":""qry"",""d"":""E-WvgxrllmjGFhpn0oOiBkAVz3-dEm3bbiV_5qwj81xo"",""dt"":""2021-01-01T00:00:00.000000+00:00"",""r"":""log"",""rr"":"""",""q"":{""i"":""DyvCLRr5luWmp7keDvDuLP0kIqcyBYq79b3Dho1QvrjI""}}-VAj-HABEZOIsLsfrVdBvULlg3Hg_Y1r-hadS82ZpglBLojPIQhg-AABAAuISeZIVO_wXjIrGJ-VcVMxr285OkKzAqVEQqVPFx8Ht2A9GQFB-zRA18J1lpqVphOnnXbTc51WR4uAvK90EHBg".
(** event_parsing/message.rs:252 *)
Definition test_signed_events_stream__kerl_str__252 : bytes := bstr "{""v"":""KERI10JSON000120_"",""t"":""icp"",""d"":""EG4EuTsxPiRM7soX10XXzNsS1KqXKUp8xsQ-kW_tWHoI"",""i"":""DSuhyBcPZEZLK-fcw5tzHn2N46wRCG_ZOoeKtWTOunRA"",""s"":""0"",""kt"":""1"",""k"":[""DSuhyBcPZEZLK-fcw5tzHn2N46wRCG_ZOoeKtWTOunRA""],""n"":""EPYuj8mq_PYYsoBKkzX1kxSPGYBWaIya3slgCOyOtlqU"",""bt"":""0"",""b"":[],""c"":[],""a"":[]}-AABAA0aSisI4ZZTH_6JCqsvAsEpuf_Jq6bDbvPWj_eCDnAGbSARqYHipNs-9W7MHnwnMfIXwLpcoJkKGrQ-SiaklhAw{""v"":""KERI10JSON000155_"",""t"":""rot"",""d"":""Ej30AgJV14mTTs427F3kILLrP_l03a27APg2FBO0-QtA"",""i"":""DSuhyBcPZEZLK-fcw5tzHn2N46wRCG_ZOoeKtWTOunRA"",""s"":""1"",""p"":""EG4EuTsxPiRM7soX10XXzNsS1KqXKUp8xsQ-kW_tWHoI"",""kt"":""1"",""k"":[""DVcuJOOJF1IE8svqEtrSuyQjGTd2HhfAkt9y2QkUtFJI""],""n"":""E-dapdcC6XR1KWmWDsNl4J_OxcGxNZw1Xd95JH5a34fI"",""bt"":""0"",""br"":[],""ba"":[],""a"":[]}-AABAAwoiqt07w2UInzzo2DmtwkBfqX1-tTO4cYk_7YdlbJ95qA7PO5sEUkER8fZySQMNCVh64ruAh1yoew3TikwVGAQ{""v"":""KERI10JSON000155_"",""t"":""rot"",""d"":""EmtXXRjyz6IdeX4201BgXKRDBm74gGqJF2r2umMMAL6I"",""i"":""DSuhyBcPZEZLK-fcw5tzHn2N46wRCG_ZOoeKtWTOunRA"",""s"":""2"",""p"":""Ej30AgJV14mTTs427F3kILLrP_l03a27APg2FBO0-QtA"",""kt"":""1"",""k"":[""DT1iAhBWCkvChxNWsby2J0pJyxBIxbAtbLA0Ljx-Grh8""],""n"":""EKrLE2h2nh3ClyJNEjKaikHWT7G-ngimNpK-QgVQv9As"",""bt"":""0"",""br"":[],""ba"":[],""a"":[]}-AABAAW_RsDfAcHkknyzh9oeliH90KGPJEI8AP3rJPyuTnpVg8yOVtSIp_JFlyRwjV5SEQOqddAcRV6JtaQO8oXtWFCQ{""v"":""KERI10JSON0000cb_"",""t"":""ixn"",""d"":""EY7E4RJXPe7FF1zQPbpSMIY-TYz9eAmNIhuprPYqTQ5o"",""i"":""DSuhyBcPZEZLK-fcw5tzHn2N46wRCG_ZOoeKtWTOunRA"",""s"":""3"",""p"":""EmtXXRjyz6IdeX4201BgXKRDBm74gGqJF2r2umMMAL6I"",""a"":[]}-AABAAlB0Ui5NHJpcifXUB6bAutmpZkhSgwxyI5jEZ2JGVBgTI02sC0Ugbq3q0EpOae7ruXW-eabUz2s0FAs26jGwVBg{""v"":""KERI10JSON0000cb_"",""t"":""ixn"",""d"":""ENVzbZieVIjYLYkPWQy0gfua11KqdRG-oku5Ut8Dl6hU"",""i"":""DSuhyBcPZEZLK-fcw5tzHn2N46wRCG_ZOoeKtWTOunRA"",""s"":""4"",""p"":""EY7E4RJXPe7FF1zQPbpSMIY-TYz9eAmNIhuprPYqTQ5o"",""a"":[]}-AABAAWITFg460TXvYvxxzN62vpqpLs-vGgeGAbd-onY3DYxd5e3AljHh85pTum4Ha48F5dui9IVYqYvuYJCG8p8KvDw{""v"":""KERI10JSON000155_"",""t"":""rot"",""d"":""E6wrLhilpPo4ePq7m7ZccEcKjwPD2q9mqzLUb_aO2Hi0"",""i"":""DSuhyBcPZEZLK-fcw5tzHn2N46wRCG_ZOoeKtWTOunRA"",""s"":""5"",""p"":""ENVzbZieVIjYLYkPWQy0gfua11KqdRG-oku5Ut8Dl6hU"",""kt"":""1"",""k"":[""DKPE5eeJRzkRTMOoRGVd2m18o8fLqM2j9kaxLhV3x8AQ""],""n"":""EhVTfJFfl6L0Z0432mDUxeaqB_hlWPJ2qUuzG95gEyJU"",""bt"":""0"",""br"":[],""ba"":[],""a"":[]}-AABAAnqz-vnMx1cqe_SkcIrlx092UhbYzvvkHXjtxfuNDDcqnVtH11_8ZPaWomn3n963_bFTjjRhJaAH1SK8LU7s1DA{""v"":""KERI10JSON0000cb_"",""t"":""ixn"",""d"":""Ek9gvRbkCt-wlgQBoV1PGm2iI__gaPURtJ3YrNFsXLzE"",""i"":""DSuhyBcPZEZLK-fcw5tzHn2N46wRCG_ZOoeKtWTOunRA"",""s"":""6"",""p"":""E6wrLhilpPo4ePq7m7ZccEcKjwPD2q9mqzLUb_aO2Hi0"",""a"":[]}-AABAAwGGWMNDpu8t4NuF_3M0jnkn3P063oUHmluwRwsyCg5tIvu-BfwIJRruAsCKry4LaI84dJAfAT5KJnG8xz9lJCw".
(** event_parsing/mod.rs:405 *)
Definition test_stream1__stream__405 : bytes := bstr "{""v"":""KERI10JSON000120_"",""t"":""icp"",""d"":""EG4EuTsxPiRM7soX10XXzNsS1KqXKUp8xsQ-kW_tWHoI"",""i"":""DSuhyBcPZEZLK-fcw5tzHn2N46wRCG_ZOoeKtWTOunRA"",""s"":""0"",""kt"":""1"",""k"":[""DSuhyBcPZEZLK-fcw5tzHn2N46wRCG_ZOoeKtWTOunRA""],""n"":""EPYuj8mq_PYYsoBKkzX1kxSPGYBWaIya3slgCOyOtlqU"",""bt"":""0"",""b"":[],""c"":[],""a"":[]}-AABAA0aSisI4ZZTH_6JCqsvAsEpuf_Jq6bDbvPWj_eCDnAGbSARqYHipNs-9W7MHnwnMfIXwLpcoJkKGrQ-SiaklhAw".
(** event_parsing/mod.rs:431 *)
Definition test_stream2__stream__431 : bytes := bstr "{""v"":""KERI10JSON00017e_"",""t"":""icp"",""d"":""ELYk-z-SuTIeDncLr6GhwVUKnv3n3F1bF18qkXNd2bpk"",""i"":""ELYk-z-SuTIeDncLr6GhwVUKnv3n3F1bF18qkXNd2bpk"",""s"":""0"",""kt"":""2"",""k"":[""DSuhyBcPZEZLK-fcw5tzHn2N46wRCG_ZOoeKtWTOunRA"",""DVcuJOOJF1IE8svqEtrSuyQjGTd2HhfAkt9y2QkUtFJI"",""DT1iAhBWCkvChxNWsby2J0pJyxBIxbAtbLA0Ljx-Grh8""],""n"":""E9izzBkXX76sqt0N-tfLzJeRqj0W56p4pDQ_ZqNCDpyw"",""bt"":""0"",""b"":[],""c"":[],""a"":[]}-AADAA39j08U7pcU66OPKsaPExhBuHsL5rO1Pjq5zMgt_X6jRbezevis6YBUg074ZNKAGdUwHLqvPX_kse4buuuSUpAQABphobpuQEZ6EhKLhBuwgJmIQu80ZUV1GhBL0Ht47Hsl1rJiMwE2yW7-yi8k3idw2ahlpgdd9ka9QOP9yQmMWGAQACM7yfK1b86p1H62gonh1C7MECDCFBkoH0NZRjHKAEHebvd2_LLz6cpCaqKWDhbM2Rq01f9pgyDTFNLJMxkC-fAQ".
(** event_parsing/mod.rs:458 *)
Definition test_deserialize_signed_receipt__trans_receipt_event__458 : bytes := bstr "{""v"":""KERI10JSON000091_"",""t"":""rct"",""d"":""EsZuhYAPBDnexP3SOl9YsGvWBrYkjYcRjomUYmCcLAYY"",""i"":""EsZuhYAPBDnexP3SOl9YsGvWBrYkjYcRjomUYmCcLAYY"",""s"":""0""}-FABE7pB5IKuaYh3aIWKxtexyYFhpSjDNTEGSQuxeJbWiylg0AAAAAAAAAAAAAAAAAAAAAAAE7pB5IKuaYh3aIWKxtexyYFhpSjDNTEGSQuxeJbWiylg-AABAAlIts3z2kNyis9l0Pfu54HhVN_yZHEV7NWIVoSTzl5IABelbY8xi7VRyW42ZJvBaaFTGtiqwMOywloVNpG_ZHAQ".
(** event_parsing/mod.rs:465 *)
Definition test_deserialize_signed_receipt__nontrans_rcp__465 : bytes := bstr "{""v"":""KERI10JSON000091_"",""t"":""rct"",""d"":""E77aKmmdHtYKuJeBOYWRHbi8C6dYqzG-ESfdvlUAptlo"",""i"":""EHz9RXAr9JiJn-3wkBvsUo1Qq3hvMQPaITxzcfJND8NM"",""s"":""2""}-CABB389hKezugU2LFKiFVbitoHAxXqJh6HQ8Rn9tH7fxd680Bpx_cu_UoMtD0ES-bS9Luh-b2A_AYmM3PmVNfgFrFXls4IE39-_D14dS46NEMqCf0vQmqDcQmhY-UOpgoyFS2Bw".
(** event/sections/key_config.rs:275 *)
Definition test_verify__ev__275 : bytes := bstr "{""v"":""KERI10JSON00018e_"",""t"":""icp"",""d"":""EZgXYINAQWXFpxAmWI9AwOwjVOYXzjyEE_-DdTfkEk8s"",""i"":""EZgXYINAQWXFpxAmWI9AwOwjVOYXzjyEE_-DdTfkEk8s"",""s"":""0"",""kt"":[""1/2"",""1/2"",""1/2""],""k"":[""DK4OJI8JOr6oEEUMeSF_X-SbKysfwpKwW-ho5KARvH5c"",""D1RZLgYke0GmfZm-CH8AsW4HoTU4m-2mFgu8kbwp8jQU"",""DBVwzum-jPfuUXUcHEWdplB4YcoL3BWGXK0TMoF_NeFU""],""n"":""EhJGhyJQTpSlZ9oWfQT-lHNl1woMazLC42O89fRHocTI"",""bt"":""0"",""b"":[],""c"":[],""a"":[]}-AADAAo74mzRNAT5WEVRYaUWs4apfEY9oblVL2MtNSORwsEVFNoyH8Vh_w_WC9TGfH-_zqN8dISIy102JtmBwllvHnBAABYQAmtsf2yhqi0zvF--TVWp7kfzVRy3BQkTdYmJrfOZFnvp0kbXlG-PCXPO7OXbKM0ZLJ1Ga_qVJ_y-ERIMacCwACInxprKSzFp2-LNPn7eVAAc8z0XO0KbUE26vv_PXt5IMwyx6S5A1nCC4DQrv6bYHmmXP0YQpkOIm-tRHrPCOuDg'".
(** event/sections/key_config.rs:286 *)
Definition test_verify__ev__286 : bytes := bstr "{""v"":""KERI10JSON000231_"",""t"":""rot"",""d"":""EDK-dx1__PH_ZJXeZBfxVnodjUsaczSocKCNluEV6Cec"",""i"":""EZgXYINAQWXFpxAmWI9AwOwjVOYXzjyEE_-DdTfkEk8s"",""s"":""4"",""p"":""Ebhb0Fnink_-r0JfJQIVr15G0Ew8upPjo94-cT3SzdlU"",""kt"":[[""1/2"",""1/2"",""1/2""],[""1/1"",""1/1""]],""k"":[""DToUWoemnetqJoLFIqDI7lxIJEfF0W7xG5ZlqAseVUQc"",""Drz-IZjko61q-sPMDIW6n-0NGFubbXiZhzWZrO_BZ0Wc"",""DiGwL3hjQqiUgQlFPeA6kRR1EBXX0vSLm9b6QhPS8IkQ"",""Dxj5pcStgZ6CbQ2YktNaj8KLE_g9YAOZF6AL9fyLcWQw"",""DE5zr5eH8EUVQXyAaxWfQUWkGCId-QDCvvxMT77ibj2Q""],""n"":""E3in3Z14va0kk4Wqd3vcCAojKNtQq7ZTrQaavR8x0yu4"",""bt"":""0"",""br"":[],""ba"":[],""a"":[]}-AAFAAt2EjEPyJOMqtUdrp2EaRenlwriXviQ0hJ4Wx0agCok1sU3QMFS5hRdwX_NEFca9OnKGVjOag6K_F4yOs1BiuDQABN30bxBTVoemwfv6bPMqi9aIBKAuqm5IjcXFpS6vdnSdcQiz5VWb5DzpjhBztZyTiBbmxihl4tGyJ8xMTlIcmAwACq5YQaTJ45Smm2UwhyX5YLVkvxeJxt9oewmGAhOxyp-_tu0KAe2mehFHa6s9BlcqE-401mQh5EcniFbdHx3eAAQADR8Mtsn-7UKC-LjWq45-tKJfV8QVTaAXGiQsXye6DC7cf5iKQeUw7NXIcuxb-CXLL3AIMg3ZfhYy44-wW6pq6BgAEPtQg63EnWDfhwQjqgIlAHGupkeE_2hZhEp2Lcx0m5x4w0S6XqR9_Lx86RMnrzc3G9W3CJ_V5iEJhNQAqdTFqCw".
(** event_message/event_msg_builder.rs:287 *)
Definition test_multisig_prefix_derivation__expected_event__287 : bytes := bstr "{""v"":""KERI10JSON00017e_"",""t"":""icp"",""d"":""ELYk-z-SuTIeDncLr6GhwVUKnv3n3F1bF18qkXNd2bpk"",""i"":""ELYk-z-SuTIeDncLr6GhwVUKnv3n3F1bF18qkXNd2bpk"",""s"":""0"",""kt"":""2"",""k"":[""DSuhyBcPZEZLK-fcw5tzHn2N46wRCG_ZOoeKtWTOunRA"",""DVcuJOOJF1IE8svqEtrSuyQjGTd2HhfAkt9y2QkUtFJI"",""DT1iAhBWCkvChxNWsby2J0pJyxBIxbAtbLA0Ljx-Grh8""],""n"":""E9izzBkXX76sqt0N-tfLzJeRqj0W56p4pDQ_ZqNCDpyw"",""bt"":""0"",""b"":[],""c"":[],""a"":[]}".
(** event/sections/seal.rs:77 *)
Definition test_seal_deserialization__seal_str__77 : bytes := bstr "{""i"":""Ek7M173EvQZ6kLjyorCwZK4XWwyNcSi6u7lz5-M6MyFE"",""s"":""1"",""d"":""EeBPcw30IVCylYANEGOg3V8f4nBYMspEpqNaq2Y8_knw""}".
(** event/sections/seal.rs:83 *)
Definition test_seal_deserialization__seal_str__83 : bytes := bstr "{""i"":""EXmV-FiCyD7U76DoXSQoHlG30hFLD2cuYWEQPp0mEu1U"",""s"":""1"",""t"":""ixn"",""p"":""Ey-05xXgtfYvKyMGa-dladxUQyXv4JaPg-gaKuXLfceQ""}".
(** event/sections/seal.rs:89 *)
Definition test_seal_deserialization__seal_str__89 : bytes := bstr "{""d"":""Ey-05xXgtfYvKyMGa-dladxUQyXv4JaPg-gaKuXLfceQ""}".
(** query/query.rs:84 *)
Definition test_query_deserialize__input_query__84 : bytes := bstr "{""v"":""KERI10JSON0000c9_"",""t"":""qry"",""d"":""E-WvgxrllmjGFhpn0oOiBkAVz3-dEm3bbiV_5qwj81xo"",""dt"":""2021-01-01T00:00:00.000000+00:00"",""r"":""log"",""rr"":"""",""q"":{""i"":""DyvCLRr5luWmp7keDvDuLP0kIqcyBYq79b3Dho1QvrjI""}}".

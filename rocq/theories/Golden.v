(** * Golden: the model run on the test data of the repository.

    python/testdata was written by this library, python/jtestdata by the Java version of keyczar.
    Each check below opens a key set from its files and decrypts or verifies the outputs stored
    beside it.  The checks are evaluated while this file is compiled; each [Example] fails to
    compile if the model gives another answer.  They are tests of the model, not properties. *)
From Coq Require Import Strings.String.
From Coq Require Import List ZArith NArith Bool.
From Coq.Init Require Import Byte.
From Verif Require Import PyBase Base64 Util Json KeyInfo SymKeys ModArith AsymKeys Keys KeyData Keyczar Disk Keyczart.
Import ListNotations.
Local Open Scope Z_scope.

(** The directories, python/testdata and python/jtestdata. *)
Definition golden_disk : disk := [
  (bs "testdata/aes", [(bs "1", bs "{""hmacKey"": {""hmacKeyString"": ""6flZ-mHQWqQJxvLf01sFfC92UGxLDIlUh3SakvfA4d0"", ""size"": 256}, ""aesKeyString"": ""oI8Do9zS2ob61QH_lOivxQ"", ""mode"": ""CBC"", ""size"": 128}");
    (bs "1.out", bs "AJehaFGwoOrkzpDCnF1zqIi721eCOMYWRmLyRyn3hxyhh_mYwpnDN6jKN057gr5lzAPFYhq9zoDwFMaGMEipEl__ECOZGeaxWw");
    (bs "2", bs "{""hmacKey"": {""hmacKeyString"": ""fLiLNf4O9ZHUpC5eBlqNFnpybmSXx8egUFM8_WC8io8"", ""size"": 256}, ""aesKeyString"": ""1WnnXOmPTDzQ8NSvdsTqew"", ""mode"": ""CBC"", ""size"": 128}");
    (bs "2.out", bs "AE8Km-wLslVldQgA2AwYlXb6ZG0Qu3RLWCf1aJs-0_xjGMQaEI5froBXUGzoUF6i4qV9IMI1Id6h9loSqTDkGf3v5sz5b-9Ksg");
    (bs "meta", bs "{""encrypted"": false, ""versions"": [{""status"": ""ACTIVE"", ""versionNumber"": 1, ""exportable"": false}, {""status"": ""PRIMARY"", ""versionNumber"": 2, ""exportable"": false}], ""type"": ""AES"", ""name"": ""Test"", ""purpose"": ""DECRYPT_AND_ENCRYPT""}")]);
  (bs "testdata/aes-crypted", [(bs "1", bs "AE8Km-wYg6FF4EZCsTywr-No39uNyKGPy1ikAce2T9QKywZkWO4H3ouNRZYBVIkqrKjxEfnQAfU_tk-oioIszYqYHMqfU5IARjnzqAaVVI7sI2L-CzcDctlMQ99o0pCacOrHrhKKw536jHpQy6PuX5dRyGT_dNe1KaXzWd9muZRidKPmKWVPnTXzADnS-R1IDDZGgIfgugYZIcbW8_7kf3xhsb7KTspuPOksgABz9D6AI_M6-jOupArLgOnfg6viDa_HKiNrtf5nUZJVi2geU0_PVohF_ioFGw");
    (bs "1.out", bs "AIvc6OWYQDk_HOO3wRbcLd0zgQb3a1UF1CVY_gptd3JHyxzwGuHc_q-AaUAVg5OVok0X2ok335qg_dOjlJCvfdOtdtAcjInH5Q");
    (bs "2", bs "AE8Km-xZp9LRE3j3Yqe042lqHko-I2jvmiUDqjDZ98Ehh0aICRiEBhgK8o4VD6mepDRkW59ERGADzlmx-d6jrb7cGVLUiMMyT5gIsWcg9kEufPRhA0kmqj-PnuLvDMqkMmefhsFvf-041owf_p2NCSBd4iUur9JhasVXrxS-5NU6Gkb0nomNPyVH6C5rCQLHGse_f4OBaXo1lSNRFEvHu08U7fl1WTXi11fzHPUB9NTVnqJaaX5gb98THe0Y7i3tm9ikpt1WDyrvv4V3xsS_zDCifbulFlhbOQ");
    (bs "2.out", bs "AFMwbLrAFc5rXErmn1_mZJ0R4JVLv2eQ2v269cJxVIJSddfLc6qkQGjlGukm4oBSWBCJOEXX16fSw66zKzqtQeMBH5gy2FjbEg");
    (bs "meta", bs "{""encrypted"": true, ""versions"": [{""status"": ""ACTIVE"", ""versionNumber"": 1, ""exportable"": false}, {""status"": ""PRIMARY"", ""versionNumber"": 2, ""exportable"": false}], ""type"": ""AES"", ""name"": ""Test"", ""purpose"": ""DECRYPT_AND_ENCRYPT""}")]);
  (bs "testdata/dsa", [(bs "1", bs "{""publicKey"": {""q"": ""AJNngGu_rd8gPsxNvKYlkk2xK-5L"", ""p"": ""AIAAAAAAAAAC36I466c_f1bADUCurTdflKhADFpWOtmRoBhuxNeAouxlL2Udz2fEsTKNv6NG712-bn2JnezPJ00TjjczyCkpZCi8B3a15gtjl2qRWel0rnLnIWrwefPSotBmK9lR13-BEZKfwtPuxkuDwpbIc33EBZb6BMphoBZL"", ""y"": ""AGDL8GKDAkDvz0_yTEzn2CaFmg8-lWsgLL9ktpMMnXHM7Yw1xTQfcHeBplEC9zIdmqRvtF69JY_pMLo8iwDjJ_yPFoP7AwfKLysgl8I22OJ3ty03MzfUrlM_-OvOlwAakNKotcj4zJbhkOFqmbS5MnQZh5iIMAWUa2woqUE3QXHO"", ""g"": ""AA-eUiV59qa6IhTKAMfaq9r0xgC9sHoCUCWZBRe4nvn7f5qEjwJOJmJqKQMIgCYez59hAI7hihgUBqBDj0v-yjcYK-ehsvs8SfUyZRYfN9MpeWZN-Jw72HGmWUL4nwWWqjuRc9DsRoxSLHuuhi6kKSTeCcgRr2DJwpB4RegJ3SI0"", ""size"": 1024}, ""size"": 1024, ""x"": ""AAaRx8WEKkkvPorY0Ys2KpZVO-F5""}");
    (bs "1.out", bs "AEhXHGowLAIUG_xNVT171cvqZLk03GuXhaOoM8ICFHjPAT3ODPy5qnhDhB3Luyx6UGOt");
    (bs "2", bs "{""publicKey"": {""q"": ""AIngy8EZrGFmGJDVKXuy6skntBgh"", ""p"": ""AIAAAAAAAAAAwC7ieoABy8YlO4DoAJOVQIG_t8LFAopp5TfjQMerqDL1EG_P_Cn12cwttSRJj1-dc2ZISIM5Cw3yHZWPue8GlEWLa7H88agBwXdV2xDx0E3YqFRw1-Ips8xa_Sn2ikJdIYJt3jbFl3DhxlpvtWvTj0XU8saR_X_9"", ""y"": ""AGmLToqwl0_Z4cE4g0p_nZ9G6jmc0hYE2gFJc3yR1qKIfNejQEvTXnRsQMs1SOGeBAoeI-DDp2OGnUQCw2cBAUO8mu0PjYwJ9z3ujlPlTrftn7tiRtE5wlU9Ux1dTxVHOgR1GYicW88X24OMyzOQ0YLweIRY43GxHpIkQ8Njdzsx"", ""g"": ""AFDc2__twgvOawCUltfsTB8HPek938DUQVFRqtDUmnuBCwu-t7okzq4SSwJWWMtL2yeqPhKLY06S16NodZwFbDTLCtpSlIKfBxJVHWIP5qdlfyjVtRNtZyq8w1JeIM8unZfTbe7T6VSdpuH2DYt3Sg5W8xMQTLfjH0Ik-GpvbJm-"", ""size"": 1024}, ""size"": 1024, ""x"": ""AHDVbYVova9s4P9A8l2Ix6-6UQX3""}");
    (bs "2.out", bs "AHT-RG0wLQIVAIPP5o6MwtwbzFVWYue8t7tlebOCAhRLcsNCqt5eCk27NqGchPP_0APrfA");
    (bs "meta", bs "{""encrypted"": false, ""versions"": [{""status"": ""ACTIVE"", ""versionNumber"": 1, ""exportable"": false}, {""status"": ""PRIMARY"", ""versionNumber"": 2, ""exportable"": false}], ""type"": ""DSA_PRIV"", ""name"": ""Test"", ""purpose"": ""SIGN_AND_VERIFY""}")]);
  (bs "testdata/dsa.public", [(bs "1", bs "{""q"": ""AJNngGu_rd8gPsxNvKYlkk2xK-5L"", ""p"": ""AIAAAAAAAAAC36I466c_f1bADUCurTdflKhADFpWOtmRoBhuxNeAouxlL2Udz2fEsTKNv6NG712-bn2JnezPJ00TjjczyCkpZCi8B3a15gtjl2qRWel0rnLnIWrwefPSotBmK9lR13-BEZKfwtPuxkuDwpbIc33EBZb6BMphoBZL"", ""y"": ""AGDL8GKDAkDvz0_yTEzn2CaFmg8-lWsgLL9ktpMMnXHM7Yw1xTQfcHeBplEC9zIdmqRvtF69JY_pMLo8iwDjJ_yPFoP7AwfKLysgl8I22OJ3ty03MzfUrlM_-OvOlwAakNKotcj4zJbhkOFqmbS5MnQZh5iIMAWUa2woqUE3QXHO"", ""g"": ""AA-eUiV59qa6IhTKAMfaq9r0xgC9sHoCUCWZBRe4nvn7f5qEjwJOJmJqKQMIgCYez59hAI7hihgUBqBDj0v-yjcYK-ehsvs8SfUyZRYfN9MpeWZN-Jw72HGmWUL4nwWWqjuRc9DsRoxSLHuuhi6kKSTeCcgRr2DJwpB4RegJ3SI0"", ""size"": 1024}");
    (bs "2", bs "{""q"": ""AIngy8EZrGFmGJDVKXuy6skntBgh"", ""p"": ""AIAAAAAAAAAAwC7ieoABy8YlO4DoAJOVQIG_t8LFAopp5TfjQMerqDL1EG_P_Cn12cwttSRJj1-dc2ZISIM5Cw3yHZWPue8GlEWLa7H88agBwXdV2xDx0E3YqFRw1-Ips8xa_Sn2ikJdIYJt3jbFl3DhxlpvtWvTj0XU8saR_X_9"", ""y"": ""AGmLToqwl0_Z4cE4g0p_nZ9G6jmc0hYE2gFJc3yR1qKIfNejQEvTXnRsQMs1SOGeBAoeI-DDp2OGnUQCw2cBAUO8mu0PjYwJ9z3ujlPlTrftn7tiRtE5wlU9Ux1dTxVHOgR1GYicW88X24OMyzOQ0YLweIRY43GxHpIkQ8Njdzsx"", ""g"": ""AFDc2__twgvOawCUltfsTB8HPek938DUQVFRqtDUmnuBCwu-t7okzq4SSwJWWMtL2yeqPhKLY06S16NodZwFbDTLCtpSlIKfBxJVHWIP5qdlfyjVtRNtZyq8w1JeIM8unZfTbe7T6VSdpuH2DYt3Sg5W8xMQTLfjH0Ik-GpvbJm-"", ""size"": 1024}");
    (bs "meta", bs "{""encrypted"": false, ""versions"": [{""status"": ""ACTIVE"", ""versionNumber"": 1, ""exportable"": false}, {""status"": ""PRIMARY"", ""versionNumber"": 2, ""exportable"": false}], ""type"": ""DSA_PUB"", ""name"": ""Test"", ""purpose"": ""VERIFY""}")]);
  (bs "testdata/hmac", [(bs "1", bs "{""hmacKeyString"": ""tE41W2GFgxk33RnZHdaE7z-PvALxxVVKdtStfqYMICE"", ""size"": 256}");
    (bs "1.out", bs "AD5TTkeqKzOUoxIK3NujBNCylibCHJRZrg");
    (bs "2", bs "{""hmacKeyString"": ""EuyKHHbO1W1QoUV4BvHf0SADM9ZMhz08M7IHMLysbI0"", ""size"": 256}");
    (bs "2.out", bs "AEcYuxsWbrgABHY2L_vEk5OzHGrD8eZb7g");
    (bs "meta", bs "{""encrypted"": false, ""versions"": [{""status"": ""ACTIVE"", ""versionNumber"": 1, ""exportable"": false}, {""status"": ""PRIMARY"", ""versionNumber"": 2, ""exportable"": false}], ""type"": ""HMAC_SHA1"", ""name"": ""Test"", ""purpose"": ""SIGN_AND_VERIFY""}")]);
  (bs "testdata/rsa", [(bs "1", bs "{""primeExponentP"": ""AEibhNDZZ4GUmxvaYJtsMXISIE1S7CWQDe64AszneRUZrMDVf9pNj6WdKKWt9qAVN-qHWrJV1FNi-HJzRotGI8Ds3qU8vV50TAYELCTxir4gmJM7q73xpemOi2Ti0fIjIWsQUcF05_341zTFBOJ9W7Ih52a6-R6YMeAqARmTqww9"", ""primeExponentQ"": ""ADspWorDXoOlBrURQSrEVq2Wzn7GTz_U-uWKr5hnByb7EBxOxv4qoh8FNsGm8NmrWntr_UslSoW4vAZGwvZATLUt6Vu67g_fM23BVPq9Be6qixQHqt3OkTs0ovtsM_ys6GFagR39wf5ilab-01P_Iud0a1PLhFtvfKpAFrNSDnhp"", ""crtCoefficient"": ""AIw42hdxUFVrFjn4rn-GoA2VDfIik0zwdiIK3DIKTLac0qEDrj5Nqr9HcT1SKUBieXVJoL--mYALYVWVPJfgOUPS2luUnzo7mYQMn7aq-vl_8lUIMFlZzVmlZe9R36mke0A6sMIGGRxgas3Bkpud_nvuIsqfIQ57XAihALjleUU2"", ""privateExponent"": ""AFAsDV9fIo175PhZenzaLCArSK8eqZjN_aRd_q2VJT3bIeJh09G7PSBdhXGAb65yV77lNkk7jDed6ceGP7Jf6-8qZgz3E2vt55VtiFojvUFJ_qOUIvxTacCm_hTf1PJY3MPq6HxT3a4tKVnf2KA4j4fZfqkil7m-keSMUK1mu4dI9DtnF6wPGHRb7k_EU5hkT8hHUVPa0O5Iop7QlZQR96f3WvIaWT9EXo_074TR3hSk48eEeaCnT1yoC7gAGLM0evnMS17g-VB2f7wgIYtXbvRv2AQe8rAZpS8HvTxhom74S3WSSdXySMciUC5Yxsa2IPXV4Lmo_zH-PVomKwc7_OE"", ""publicKey"": {""publicExponent"": ""AAEAAQ"", ""modulus"": ""AKe_xYISa_TOcQ2i8nfKlpGkG5y9XKFeIDi4BO7iSgIQDMuTLx91gSYwuhQnb-GtgGkdYk99qojWFUMRurq0asROTxQQ8B6cdpIlOAQnGHI42hsPPUlEfeZoYJsTtlQZsG6x2fjgOQhgTwsCyHB49fupBnpxvq7LNvcst524kvhYB74rVrNFXqCEqJ1HYsTNn5RJWwQ4CT0oKiaP1mk58He0HEceWoCvpjjpsHyEnRVMbpXE_PxEynK0Yt-t3O8xtztG2hJfCfFjxeggRc-jNvDynBqXnOvbpn1njAYWlYdyAv1pPLlmeN90K02RHTppWJgorJWOemqapGLwqdFIiu8"", ""size"": 2048}, ""primeQ"": ""ALsU7vFpMe2KQ0vOH-TLVeisMO8y1GklIKDxxZyyHRoaWTM2AfabkUuGkyaF2uBxS-n-gHoruQldvOpIOfgcMxtq0P7OLk5ae9rz5DupS62kJUk-3x_MzOu0IomeVgHQgaCm1cYagfjRceUNpzjpl4HmanRFBrG_JusrzOdkL7XJ"", ""primeP"": ""AOWLo2KZYdF4Kq9HaLgczyZNVetXrFPURwSLODNNWwVkxKGOWJD_aBgQ-JnOHN-FAF4K-zRkW7IkQV6qezpFr-p4eVhWxfknhgSYqdc4CXrqkgP0ba5pzn6Pjzg3aLVy0V8iqYDJQuT3JdVS4kgZEj7zmHjBb9RZahWiaITWifb3"", ""size"": 2048}");
    (bs "1.out", bs "ABkOnR43Y8tppeYDTmZ48VbjmKx1lFhiib_IFVtMrRQBs209Iy6E3I5tnbTZ2cbrVsZX4zIbUY1lV647XjWzWf9LAvzqtrUCWxpzryWb71MUvOuC41lN3uvQklIeAGDDsU13Ri7Gy0ThMHP1-aZIidJbFnNnqGkietKt-9wmDbHTEIVTTtGEWuggZa--zQ36IRHgwRt3o46vEUm8j0t30qKijGu0M_QueTTTZjqndupKjy7q8jmVYO9Cg9nCfPbKbrmxa6X90nggZ8DKfqA5TPpidTFj-2JVsuYbxTiOxG6fCvxSeamkvkwWSBu3ulcgvJtZ_lRn9x0lEys0yDLhjlMhlH0T");
    (bs "2", bs "{""primeExponentP"": ""AB8nBZvBCLN8zvepq-esxJJq5vAGWG_DH8bTSGq2zdISX_3zp67F31gv6_nrKax1DN52csWoQby69ptI2LB35rA2R9cOG0CmZJHniYc_mAfREPP7r0et9vsP9NUoXUdKqRjO4fKarzpE62Gah1-aLCG27ufKDRZZPaeTItuqE8JV"", ""primeExponentQ"": ""ANCU0vd2adr1X2k97bJBclgMT0CVIAwVHVgeiQT6Ef1RAkIrmL-6bF_l8y-1qbvAzyKDO_askEz4joBtZtW_V7SjWtOq8AIzQSY1I0UIXgh5rDkM4NfQAECivWgTHZVRwSJ82lC1S4fopFt208EUuc9EJzGXLqc23Q4zp1EhYuCp"", ""crtCoefficient"": ""AINeV637sAibBcjXWMJFOoD5PDGYM_jZ9tDG2GnZtk0K9pR8uBNSqcxtOCH3_tGRlwcklpYN30QrXMl-UmPlfISLgs6ZctoiXyk0FNNcAemrGNKUDHfoGJ8ULW-wrXZZpAN1MkYdJuyZEhsNlcygiEXj5lwxXfzr0fv8oBKPm4Nn"", ""privateExponent"": ""ACXZv5vwwbMHjQosGtrdamBr4MXtZ4Uy9Ga7Dg6rQmCzFDN8pZZsPfqOLeln3bfygCfD1CSNSHZn_5omfDNBaMv4t6aCX0wYOZnN1dv4rwenMmpNGYVFwlF7RbK6OUd624B_ltR7eZ_Uov5hqjdvLZXc4iqXb_OnNb3QDb9qETissjEZZLGoWq9U2XmzK6OQfGFOzkCE-57yEs0CUD5YGpUYmqxVY-QTJ0ILrpIA0q-DvoZnOGkb4riST2Yp9new4kADSVscu7ALR7rizg24kz5HFpow8R6KONHDgasowkehOFeTJ5DJ3fIS5Im6-Af7-Z6EHmNOO6YXigrk9ptlFsk"", ""publicKey"": {""publicExponent"": ""AAEAAQ"", ""modulus"": ""ALOp2NXASQyAYaIqQZSAoCgqS94SmvFEuaq8p2xJhGcd4wMJt49zdtiaRb6oAVTeIH1DzcwS21aKd3unV4dc6Vl9bM3-lld4FiONQpQLQS3R3ta8j9m3pOk0gylKQhNlkarN6E42g3Hw9bD9Nhr8JM4mrX_7vt2zmTnTmpsv-moPtZr4_I6Avc9HLr0GM3Z7aJsImSERL4U-Unv5r0r0yNAgycvD_-eIZvaQXJ-9NfdU3oZYxbgRkEvLunw5YA-DwphZ5aP1PD8Jayv7o0KWU-NPp9iMCOCocSlD8hxslwYgay8F0pLaQFcIMQ-epEHVAAuOsEgUVj1VEdrIsdf3o_8"", ""size"": 2048}, ""primeQ"": ""ANC-aLy-PnmS-RNDGgtFWCS10tARA_P60GnwkiANWZLhr6d8kT-xnMrx9lfF_h0MN0YeEFkZ7goG0M3EF4_AQQCtMUqmWCpbiTpDqrGCToQthZbQjqCMM3KvZExncdyscCIkp_ZduoujcjBoo6ffRH9e1vu7it-FLEe2tzSQ-FKN"", ""primeP"": ""ANxWHAk-1qC5uity3WROzTKLZHsI6K9eo_FGprTiyNLchw3cBLVkdU9FklAY2pTS5IZArvFUlHG8WT6zP78JGAoVVIXiHXjjzEnvaFg4HrS3eG5rLQQRbH7WgADOgLyH8J_Mk-fQwG1My74Tzv3jQng18l8tR1ijqu27cIXa9nO7"", ""size"": 2048}");
    (bs "2.out", bs "ALbf-tUUMj6QojB9Bq8cKhwWHQ1TNyxbw6D0n1w9XzSUPTHQrvia354WuuLQ0RdpI_PVFliKJxFYLtryim9qCPSxjT_qRspzWf7zVU5IS7RZyIN9wNcEztqwgjxaUW-WVzs-XgvoDa4LCbwK3JSPlPlkCBUXXEMJEhmV3z86OZGbzXaauMRkSAzX5xaYiZ59Nka6YRqlvxpGI6CuHGAC2prRBhOQluzOIG4U0pJVj1rxCY8VY-EUA2Xhgncwj-eTDwh-jtDVXkZ_wMLNORlr3BmhEo0eFOiQ5dbDdVQwCJb6FwvVL5QlTgaWJAdOy3sqMUBO4_TOPqcdn-WShB3bbe-bciLR");
    (bs "meta", bs "{""encrypted"": false, ""versions"": [{""status"": ""ACTIVE"", ""versionNumber"": 1, ""exportable"": false}, {""status"": ""PRIMARY"", ""versionNumber"": 2, ""exportable"": false}], ""type"": ""RSA_PRIV"", ""name"": ""Test"", ""purpose"": ""DECRYPT_AND_ENCRYPT""}")]);
  (bs "testdata/rsa-sign", [(bs "1", bs "{""primeExponentP"": ""AB9rI3dh7ey3KzLS1HnLCh8AOG27LMS3i2nMnJLCTfEeiLaYKUha2JtuRsa_f4PEDzO0zNm9DxDwOhucsjLANyEDsB_zPPIkxpG0bk9ACZUPgu1cg79vZxUt4YaTLXiqivZ10f8GzJxW6sokfvinKw54oqmQ9i8xsxjGba-4GAVh"", ""primeExponentQ"": ""AEBGdX2bQ_bngfqlG0eNPlXRUNvCGpDtxWqcCLU8jNxnqZmfXHdSOhE2I1-4mr9jruPtEFPdlNcGsrkLBHHlcCgsNLGWalkE42At7bR_Ou6_0EzQpHn9XzM2Gkr04ytP8cL5CvPTsIdHYIJATxIqINz97Ep25TpYYHbOGwwI2rF5"", ""crtCoefficient"": ""AAXDJ8OIyuKmlDhaY3NpRas57z2CwbTOfrv__d6rB1aCy7wOu2t-Wayw9t8GhYS4iKVlJtmd8PwQvGZeBBGaUspG_VeoUhZWVEow1cG25hEODpAVyzR39QvnzZTIzd8HCVZ44H-i08wCuAtgE55EBLv0lEWrPJEs3kBI5cotUitL"", ""privateExponent"": ""ACVcJquIXWLV93X6AwRtdq2PCsL0Dq9h5NM-_1VZfH3LWjpdAJTLnhb2vH9O0afQ_QB3zH-Qj-NpBeZzcr5c1QcDGItef0P6W_lj1_AaQZr_QUU7Lu-Gaip-Yvyfdy7X3tt_tuPMbHCJZEi3E8X9eo5osoNYSWH3vDu53lm3Nuz1fXKMpYfg85xqvwV1JnGJdhi7MxfkOYQEf3VCY-StItAXDwrCNYuKCcgewoxazF6PR5-T5GEL81FH_TKlyodp_V8ihZEoz31hYHZfEPc8Bxvh0xqC-9K3lUeldTSZIOIT-yiEsFM8FuBSNYPE0ZF6kkrygBVN_re3iVEM0yiE9Gk"", ""publicKey"": {""publicExponent"": ""AAEAAQ"", ""modulus"": ""AIBrk-9WZuTlQd9Pvj2Al5rj_thf1l5ffvReqx5vypq7LFvwJFSzUQ2uCLppcSvxIkIt4Td3yepeKwNf9zdXL-D1VT25hDxjygUZjlpQGhC2_MHWwR4DnwPmuSwneQ_3KTZp_5BU3LMkLvgfiIN-khWwJfjk97t7vw9BJidxXBXDUDvjP_lT364dPgaiYucdY31aBq9tIy1B59Bz_ukz6X3DryFwdiKAAdMIKoq4sNBTaJWisGpJeWfFjUfqwzXIqd6v3X3ODC6mNq5J66dONx9Q-R1YqkSUo124Mtyy_6JV0mFM3YzFPoHbaTJai7ng-8WfI2aJ1Nl1ntHvPeueY6E"", ""size"": 2048}, ""primeQ"": ""AKbQkqysw6QlZa8M6jCqswYzZ9JzT40-T3v619Ob8Nfw0EjCOJifIxyXOLWg-RDQF29Fq2tmJ943VGJvfY5QOy47apY7uzgn3an2pto3OZpTSFmL9JdbIXXvrFAe9k9uT23M9yssXd2ckPJXr2jBio3_hsF2NClWhjdg5UxlxU4v"", ""primeP"": ""AMUUEIb-K3udyu2Gpb-xsEVAed-Mmz5whIqV6gfQME3t0LBwHpdtZt4PvEz-MXoC0SVXcBYyZX0K2wvthUdo6nfWFHmdIXR6IwzQkFwWkACdZwdvXZj4tgRvHFX4poOHV3LizfAkWj7P9EPOCug8duzhcuuz8FKFWT--S9BQKkcv"", ""size"": 2048}");
    (bs "1.out", bs "ACkPBxcWuH-_s9acnvgTJOo8NMQnJOnMv9Fqi0-UPBEoHbEnGM8lAvoa7rgtyGPwiN7Q6lG6vwyRcwqJ4VRaoCNJShSqKeT9oAUtNNVR7PF9zxMlt4f25FS9DN4V6ENpEiKJFOTqWt9vZWD2W3s6j0O3pke7M50LHOaieJDs2NTuLQdgUqtLa1RluCCrEc9tbL1_78Qm4ypa-YnGZdvJk2aweUJvHwCLZP3toe-CqvA-prKLGMzHuuu4HU5IVpf99aR4yeM8e2mnaqAKblIfMt8Hfxzc3K3HcZNqofH5QaJYyS9Hmy-FfQceaZVaW2VX-lpsozG2J6VsbEGARlUrKWcOpwsg");
    (bs "2", bs "{""primeExponentP"": ""ALC7GVBqQFifGjASDBlLbTKJnilWVb09A4140Ce48zmzE7Gv_awlv0XYPTW6kvjvedO_5esBvzbYiDSpBCqUdr-CB43U7KVzuJUDyWYMNrN5O9UtotcHxTqb_0rKykY1obRgTFgkcBeO_yexp4XfdUjFPVmmyW8AVICqlFI8bMWF"", ""primeExponentQ"": ""AFkU3b_waD2w-B7Lrm_fYgCHe1tpqlIUxLEJq1_foiph72yNQdnXa2JX0B3m0n-45RmswHj3z3UR8UoU1VQklck0nwqdWoP5b7lIkQX4TMzf6VTVyNYZziriEDxKNKyjohzvqNybqTNTgYk0dxh3AZKJSgJ022WIK3wUz_mKeLZp"", ""crtCoefficient"": ""ABhDN0QhY3eqWI3TACq8mwG3xnqepuiWp9nXku65qnVVvd0oQeEowID_ucLiNKw2BxnUtyVN38hA7S8FSUOIiqdvrC1bCgRuAabGz447GAqiHWuUZjOF9sbF2fhn7fnvPkuiYGdllwILfK93TKOit4PK9SrgUTspAHLjiRx0wB4b"", ""privateExponent"": ""ADLuC4m7dEabMXeZS-KQcWXbWrSZIBls6Y9Bd-2eiW2HYJn_leDwvUG3r7MZJJ9d0pUuz6fVUvOv3XCIgeELtFf2jbLSMnvr9p9JLUfNYjlq6jIo7wlLPBAppJMSyWlN_Y2ZG-G9pcUfCyH6ISVM3gfVNFtlZSPvemjgokFuTsdsCOECYp50hOzsMkvXimhF81vx_LhV0OP9crQBosPI0KODyZkdJCc0KBAYvh3VHjUdgm5l4Ru6xiI0_ug1ufVwGta1a4fQpJEcK_NgYy8gzpJXl2En4acggKhQZwieG9VL8dMCKzQDT_6bjATz_EKm6PkeI13ELh4W8Qm1vtaNc5E"", ""publicKey"": {""publicExponent"": ""AAEAAQ"", ""modulus"": ""ALbaQMoMXpvjDgkSBy2yIuy9uptjGwvvUyql-v6apZmiPDYxTsvINskQ4IpZBcHSiE1vDm0RHuVPJBqsa7qEhXNnm2F3s65pqri5vv85VPFKWf7A73RZfoTcwNECcnCUMWp7YPKyxnR4KfmfY15Mu1GVMYOoKL7LqoNBFrhmUwxcBGJWF9nvX1RD6jHXKw-I0E8xDR_n9NYI0HaMPyI67jLuYNj5V1Ql1FIPnivMszO0AczY7vQ39eyz2fTbULrHtyoQAw8EgVA34pem7sjL0I-bcexCtAiZtY6PCRCBx6PKMBE0izrFjohLcFhLwA9eb2wBLd1G3qAd6YdGIZhaUPc"", ""size"": 2048}, ""primeQ"": ""AMbqD9jEtQ8Hx1Z4qGgXLs2dip9z70ksG1WESUfqYu28gUlTY4x1NChKRAyNBqI61JpL5yOSc4-ZV2pPBOAlNXLS-kEJe3eeEC1tqN5lTsXUDws1jVpVeyXN9grNVO2HYH3BojhQ2q1WBuoN_kN-gkFNguKGsFD5ZbjLKSM1CK19"", ""primeP"": ""AOtUKHbGl2pyrFOo44DrDTDAVCcDQFFSYhGab7-iRCbFveJpwCDOnYlNfBqhOYOTXlvdY3RaOUfEUz-jwM_ZZGAf_msGg7s4IhVD2Tpwuj-PZcg6dpgfMEqSqskDAw2d3EmesmiXwXrR5iHQH2nnkfDN7Aq3KnvHzVK_qhlITdKD"", ""size"": 2048}");
    (bs "2.out", bs "AK4ATWSGRVydF_F3aKtKwTuQ6jsu-tYY9vGaIoE_fAs61lcQcl2nXNscoRR6UIWppa0n6p2i1KjuYYd4qWg9zTPeecxzEIcdXgc36rT44HBYzXKFGlT0ZnNzEaprzqE2tHfS43UGWWOoS92aPzxaPgtY3C3cp6Yu0NidAZo-sSkIKI-gLXPaIOJ4xws3Rh4fF-Xz38d4UzcsrEHTg-0Yf1cJ8HLXUjkBLnbDzZq_CzJln-x9y4lEYDWifPC04PW3S60Go9Kbxv3uisA-9VOkVUPNF7CsBR12K7N3rwQzItMmc4w_Ir0j48-GmLRlOSI7g8wOA_6tHA9j108jfNhEo-ocQBcs");
    (bs "meta", bs "{""encrypted"": false, ""versions"": [{""status"": ""ACTIVE"", ""versionNumber"": 1, ""exportable"": false}, {""status"": ""PRIMARY"", ""versionNumber"": 2, ""exportable"": false}], ""type"": ""RSA_PRIV"", ""name"": ""Test"", ""purpose"": ""SIGN_AND_VERIFY""}")]);
  (bs "testdata/rsa-sign.public", [(bs "1", bs "{""publicExponent"": ""AAEAAQ"", ""modulus"": ""AIBrk-9WZuTlQd9Pvj2Al5rj_thf1l5ffvReqx5vypq7LFvwJFSzUQ2uCLppcSvxIkIt4Td3yepeKwNf9zdXL-D1VT25hDxjygUZjlpQGhC2_MHWwR4DnwPmuSwneQ_3KTZp_5BU3LMkLvgfiIN-khWwJfjk97t7vw9BJidxXBXDUDvjP_lT364dPgaiYucdY31aBq9tIy1B59Bz_ukz6X3DryFwdiKAAdMIKoq4sNBTaJWisGpJeWfFjUfqwzXIqd6v3X3ODC6mNq5J66dONx9Q-R1YqkSUo124Mtyy_6JV0mFM3YzFPoHbaTJai7ng-8WfI2aJ1Nl1ntHvPeueY6E"", ""size"": 2048}");
    (bs "2", bs "{""publicExponent"": ""AAEAAQ"", ""modulus"": ""ALbaQMoMXpvjDgkSBy2yIuy9uptjGwvvUyql-v6apZmiPDYxTsvINskQ4IpZBcHSiE1vDm0RHuVPJBqsa7qEhXNnm2F3s65pqri5vv85VPFKWf7A73RZfoTcwNECcnCUMWp7YPKyxnR4KfmfY15Mu1GVMYOoKL7LqoNBFrhmUwxcBGJWF9nvX1RD6jHXKw-I0E8xDR_n9NYI0HaMPyI67jLuYNj5V1Ql1FIPnivMszO0AczY7vQ39eyz2fTbULrHtyoQAw8EgVA34pem7sjL0I-bcexCtAiZtY6PCRCBx6PKMBE0izrFjohLcFhLwA9eb2wBLd1G3qAd6YdGIZhaUPc"", ""size"": 2048}");
    (bs "meta", bs "{""encrypted"": false, ""versions"": [{""status"": ""ACTIVE"", ""versionNumber"": 1, ""exportable"": false}, {""status"": ""PRIMARY"", ""versionNumber"": 2, ""exportable"": false}], ""type"": ""RSA_PUB"", ""name"": ""Test"", ""purpose"": ""VERIFY""}")]);
  (bs "jtestdata/aes", [(bs "1", bs "{""aesKeyString"":""WwyzvandqTxlRTFY0lBjzQ"",""hmacKey"":{""hmacKeyString"":""tt2G01lN0hp3vopj_tMJE-v9IacrL6feNMbDTzz28BQ"",""size"":256},""mode"":""CBC"",""size"":128}");
    (bs "1.out", bs "AJubU4KnIdbjw-NEcJCAPyeggY8nam1GNZzGMbkz4lZM0Kkr3r6Lr65pXzt2VOuCYoOHYoU-6zspSjNQxAZBG7fcfBR2ItQ--Q");
    (bs "2", bs "{""aesKeyString"":""modBcT7wtu9M5xlHcx0lGw"",""hmacKey"":{""hmacKeyString"":""F9N11whfdKwcF5AlllMyWzylQTMh37TaHFQ4Wwyregg"",""size"":256},""mode"":""CBC"",""size"":128}");
    (bs "2.out", bs "AMqJf9wZuzfDkDX3ILv1GVoNTWmr_Lj9grE1uw2lNNrBYDS7uPnKXEfApqN1oDQmfGtaszz6JVObUpaIYO6X7Q1Nx8lDo6X8cA");
    (bs "meta", bs "{""name"":""test"",""purpose"":""DECRYPT_AND_ENCRYPT"",""type"":""AES"",""versions"":[{""exportable"":false,""status"":""ACTIVE"",""versionNumber"":1},{""exportable"":false,""status"":""PRIMARY"",""versionNumber"":2}],""encrypted"":false}")]);
  (bs "jtestdata/aes-crypted", [(bs "1", bs "AMqJf9wnz5d-VGaXDGjxIGpz94Fn5nLxPjd3MgbjfaJHToHHuw_AQEOSP2XaxE0SelDS1S-ufcalAj1KNGm1qhkD2nAwwwurGMQD8lmdtQ72lZiPgszOn56t0DVm_-l9lsUOvGhVzJ3SMVRhuHTmqieFag0hcXu5rKMIE0V2R3WZIHoeFVFQIaPHrKY61vbs0il56Ac2oz62Kozf0nD3ZQvAkWx0I2akOknGfbKSNFXoCzonVHrK315v2HyxHcem4qganxnbhcaU");
    (bs "1.out", bs "AIHUAkQPmFn4fjqVjiEEq9RRdjN7P4fmmCgLkHpWAv-KecNATlyhkl754nqe0sryyh0xXXwQNxNzDSBmJXneYD1rphiZsv_Z3Q");
    (bs "2", bs "AMqJf9z0otfxgvsf89PBd_NPOIGq1luSL7ifAvYz7bnEDjkYl4JCM3qlMDMnTl6BKpWO1MteeQ7FWIcWoE0ogIeYTcef45BIycQet508kIQ_I6obFyfOrIkca7f1GRTV_bqgPPYo1nMi5OwzKWOEzQzyJQhji-DkDsr8RObaRKoIet72Huo6roFeDkJZGfp2Btqg6lssBsFXBXtrSqQZ99ojItMgpjmvIT3RK4hTOXo-tl1_9itJdXdjxqUWpAbKA8UAmtGE-Jha");
    (bs "2.out", bs "AA5kxJr4jVeSZ2rCg6ulK7ZYxAWQ4FUhZ8R5N5wJCcrsMu_K5x8QKetecqBnB44z82-vxAYF5AnPXkesjdPyKmTeXPBVkrzwig");
    (bs "meta", bs "{""name"":""test"",""purpose"":""DECRYPT_AND_ENCRYPT"",""type"":""AES"",""versions"":[{""exportable"":false,""status"":""ACTIVE"",""versionNumber"":1},{""exportable"":false,""status"":""PRIMARY"",""versionNumber"":2}],""encrypted"":true}")]);
  (bs "jtestdata/dsa", [(bs "1", bs "{""publicKey"":{""y"":""K3YU5x0w2VI37MylO4rOKXSVe1U_69szeEWQFjey1mgEXIlqMWKg6hlj_SuJ_PloChN5reaZsGKS1O9jKV2qO1XafGam-Qwna3Iq66q8R-X6vKhFpQZ1VvDJwhOtT4wCatoReFJFm8yLeQ_-1mIC3c9eeLh6z704h8DXpDRXtO8"",""p"":""AP1_U4EddRIpUt9KnC7s5Of2EbdSPO9EAMMeP4C2USZpRV1AIlH7WT2NWPq_xfW6MPbLm1Vs14E7gB00b_JmYLdrmVClpJ-f6AR7ECLCT7up1_63xhv4O1fnxqimFQ8E-4P208UewwI1VBNaFpEy9nXzrith1yrv8iIDGZ3RSAHH"",""q"":""AJdgUI8VIwvMspK5gqLrhAvwWBz1"",""g"":""APfhoIXWmz3ey7yrXDa4V7l5lK-7-jrqgvlXTAs9B4JnUVlXjrrUWU_mcQcQgYC0SRZxI-hMKBYTt88JMozIpuE8FnqLVHyNKOCjrh4rs6Z1kW6jfwv6ITVi8ftiegEkO8yk8b6oUZCJqIPf4VrlnwaSi2ZegHtVJWQBTDv-z0kq"",""size"":1024},""x"":""BLYie87KQr2hKXA49XJKDIRe1RE"",""size"":1024}");
    (bs "1.out", bs "ANFrFsYwLQIVAIcDJ2ez5mygnrUfwgGCrZwWPOe5AhQ1-sAPNq4WyjMF7M12hreDh2bCFQ");
    (bs "2", bs "{""publicKey"":{""y"":""OzkwAmyS3ROz5Fo_-TLQwrdy8ZqDO_cQbuBuff9adnpYrxHyVgh8jMnv9j6p1Q6MB2ksukuLk2vHLVIMnMu8zCHCt8F_a4cx5szal9XaVRfqfA851aImjXC65SfTwdWHLUpPGAmzd20dKd8wTmR5B-op58fiDwLthxIPqq0rFRM"",""p"":""AP1_U4EddRIpUt9KnC7s5Of2EbdSPO9EAMMeP4C2USZpRV1AIlH7WT2NWPq_xfW6MPbLm1Vs14E7gB00b_JmYLdrmVClpJ-f6AR7ECLCT7up1_63xhv4O1fnxqimFQ8E-4P208UewwI1VBNaFpEy9nXzrith1yrv8iIDGZ3RSAHH"",""q"":""AJdgUI8VIwvMspK5gqLrhAvwWBz1"",""g"":""APfhoIXWmz3ey7yrXDa4V7l5lK-7-jrqgvlXTAs9B4JnUVlXjrrUWU_mcQcQgYC0SRZxI-hMKBYTt88JMozIpuE8FnqLVHyNKOCjrh4rs6Z1kW6jfwv6ITVi8ftiegEkO8yk8b6oUZCJqIPf4VrlnwaSi2ZegHtVJWQBTDv-z0kq"",""size"":1024},""x"":""UcnvQDd09yn900DybfscZ1PMk4Q"",""size"":1024}");
    (bs "2.out", bs "AAK9BcUwLAIUQTFTcZilB_pzJCLV4vTQF71uPcECFGuOHDtHTEqaQHVc49j7BozGDFZX");
    (bs "meta", bs "{""name"":""test"",""purpose"":""SIGN_AND_VERIFY"",""type"":""DSA_PRIV"",""versions"":[{""exportable"":false,""status"":""ACTIVE"",""versionNumber"":1},{""exportable"":false,""status"":""PRIMARY"",""versionNumber"":2}],""encrypted"":false}")]);
  (bs "jtestdata/dsa.public", [(bs "1", bs "{""y"":""K3YU5x0w2VI37MylO4rOKXSVe1U_69szeEWQFjey1mgEXIlqMWKg6hlj_SuJ_PloChN5reaZsGKS1O9jKV2qO1XafGam-Qwna3Iq66q8R-X6vKhFpQZ1VvDJwhOtT4wCatoReFJFm8yLeQ_-1mIC3c9eeLh6z704h8DXpDRXtO8"",""p"":""AP1_U4EddRIpUt9KnC7s5Of2EbdSPO9EAMMeP4C2USZpRV1AIlH7WT2NWPq_xfW6MPbLm1Vs14E7gB00b_JmYLdrmVClpJ-f6AR7ECLCT7up1_63xhv4O1fnxqimFQ8E-4P208UewwI1VBNaFpEy9nXzrith1yrv8iIDGZ3RSAHH"",""q"":""AJdgUI8VIwvMspK5gqLrhAvwWBz1"",""g"":""APfhoIXWmz3ey7yrXDa4V7l5lK-7-jrqgvlXTAs9B4JnUVlXjrrUWU_mcQcQgYC0SRZxI-hMKBYTt88JMozIpuE8FnqLVHyNKOCjrh4rs6Z1kW6jfwv6ITVi8ftiegEkO8yk8b6oUZCJqIPf4VrlnwaSi2ZegHtVJWQBTDv-z0kq"",""size"":1024}");
    (bs "2", bs "{""y"":""OzkwAmyS3ROz5Fo_-TLQwrdy8ZqDO_cQbuBuff9adnpYrxHyVgh8jMnv9j6p1Q6MB2ksukuLk2vHLVIMnMu8zCHCt8F_a4cx5szal9XaVRfqfA851aImjXC65SfTwdWHLUpPGAmzd20dKd8wTmR5B-op58fiDwLthxIPqq0rFRM"",""p"":""AP1_U4EddRIpUt9KnC7s5Of2EbdSPO9EAMMeP4C2USZpRV1AIlH7WT2NWPq_xfW6MPbLm1Vs14E7gB00b_JmYLdrmVClpJ-f6AR7ECLCT7up1_63xhv4O1fnxqimFQ8E-4P208UewwI1VBNaFpEy9nXzrith1yrv8iIDGZ3RSAHH"",""q"":""AJdgUI8VIwvMspK5gqLrhAvwWBz1"",""g"":""APfhoIXWmz3ey7yrXDa4V7l5lK-7-jrqgvlXTAs9B4JnUVlXjrrUWU_mcQcQgYC0SRZxI-hMKBYTt88JMozIpuE8FnqLVHyNKOCjrh4rs6Z1kW6jfwv6ITVi8ftiegEkO8yk8b6oUZCJqIPf4VrlnwaSi2ZegHtVJWQBTDv-z0kq"",""size"":1024}");
    (bs "meta", bs "{""name"":""test"",""purpose"":""VERIFY"",""type"":""DSA_PUB"",""versions"":[{""exportable"":false,""status"":""ACTIVE"",""versionNumber"":1},{""exportable"":false,""status"":""PRIMARY"",""versionNumber"":2}],""encrypted"":false}")]);
  (bs "jtestdata/hmac", [(bs "1", bs "{""hmacKeyString"":""zfAeeLafawzfkpOyrfRHxJo2WAUyL9PyCgqFXr10wv4"",""size"":256}");
    (bs "1.out", bs "AI-Dj_WPGI-aws3Wfog1Y3RSXZ9ICiI-iA");
    (bs "2", bs "{""hmacKeyString"":""1LNZNV3PUpp71FiPfVDOrjNqpaVotwEJsvFAXtB1wiE"",""size"":256}");
    (bs "2.out", bs "ALw_zW5enSdJ34dAJ1Cidm8w7OkgsxW2kQ");
    (bs "meta", bs "{""name"":""test"",""purpose"":""SIGN_AND_VERIFY"",""type"":""HMAC_SHA1"",""versions"":[{""exportable"":false,""status"":""ACTIVE"",""versionNumber"":1},{""exportable"":false,""status"":""PRIMARY"",""versionNumber"":2}],""encrypted"":false}")]);
  (bs "jtestdata/rsa", [(bs "1", bs "{""publicKey"":{""modulus"":""AK7YwXqDeRH4XcEWubMRFWDlXnZNA8Dr3KBMIdSG4wMTojNigSlgb-VhQ2_h_gBjZMRXeXB31DA_cEOoSpoOBf8ddQG1e5npQ7rp8-XqJo12iLgSxZSHaK4xLxh9rQjTPrCw8vrclzjJ5nvPCMVRLKlK4F1IxnCQ8lKno2uSOQxjzsMAnBoi0HgV0Zr4_-Hr713J2rNYGc5D9wVIJ0TXXkQ11xJ29xrzhk2ZjlBvG-R5yxZjq7baXKxV0yFQbso2kySZk07v8F8o7ByUqhDfI81U1n4s_vrQf5lroYEGZqWq4cVOBROcdHUhvqNmMl0sJ-ZpEad6H_FJPa6hRtAeRCc"",""publicExponent"":""AQAB"",""size"":2048},""privateExponent"":""Vh69bbLEN222AB1JakHH3eocFPjqGGQUT4AwSZYGysUo51ZleBPgCYNWzAzsJxTN1UegsRzUjs8wZKLH3Al8OqQvtZ_GOZEDo1UIpP4n7xWrUb8tQnNPxDzFjbKZP_eMsUr240kz0uzfcawQDeBltx0CVfA6jcdXFA8uFxX2s3rB4BDgLsogUtJ0qAvzpQ2iqt0qyIjTlSAI5-p3o_OdUkEfpbn6K-mH3RpOk3Bin3MpZnMRuBf7Pdy_GUMJ96FDgm4LpTqwL37SPBIcN-ht-VnKNuXF2ZWoX-o7oMhkOAMoB1Y_dMHkVhJjTSNtjED92euhzVY9J8Soj8lb_WHpQQ"",""primeP"":""AP0Pn83rJeRJSu2oT1gL4RShvfCP93qPRlIDktWld6x4x_rzZPv0XBG5B6PVVOMiKF7o1J5WFHy8cHC2rxbS3WRXu8Iudo9AkYFesfVMLrAucbpkDhvw96hYGc_9jcqAUrGLpIfapdQkvIZm7f05TImg-_qGaK8zH4_TC0T3Kuwz"",""primeQ"":""ALDgl67oa0KebvaEdETq59XIKnNCwQaM75NOUqpk-o2l4dJsZYnrHUtJ4M_qVFpCXgqWRVP3kWEgv6iqcFatF56PkQAdD7Nj4ZH9vXYyGEOkaKIHV1CtIFPhTo37_AcslQgbutG1DQN6iGuxmU3zGJM1bR_QPTKVKb1uEJ290BQ9"",""primeExponentP"":""LSWYcPg-rleVEokwfpi_8xpX9I76q9bbyM3yaEM48oApzU-W-IxD0LWd81Cf8FWrtiL7q7PXu9kyhilRW1ULQleUm7QGWtA-JUJrpUOOIMhoacRn7_wxcssk78JghXwXRK2RENulMg_Lwn6ifsa2LOeXjL5l9ru8KcCRBiDCe5k"",""primeExponentQ"":""VuNdX_yohCdUFyFmBFzo2inkQI6wR8l__vrgvPex5VdxoW7CSogG8e8u0rQoD9a-X7EGCYN6FR6DSBXB7bJGAgxAjK-6AMO2EYN2SNO--6uOAtpcWDNTyCDL-A-q9NM_uqX0lgO8itLspQqvZo1eqyH5o0Embuy7fmTNINAXoXk"",""crtCoefficient"":""Kf8QbMXaadzFdAcsC41qBnWHjDUPrd5qz6-H6iwAMEJ1JC0_cBAUFVhIjjV6eUsGijqdk5x5JimamOaNf1E0efM5-nNVLRSLwHYDOJ--3hlwsg8msB2It2YsUGRaXehr2UZbcK3rNOiG_BavDH08boUJa0Gl055RxIfQ5INjgDY"",""size"":2048}");
    (bs "1.out", bs "AKlPbZhAcJwPGCzr_tw8p9POChkq7WqYOiQuWNVzOTEhMTC26E0HwEVaJO-MWowP1DhoXzGGJJ8AAHMO9UscyNr475Cjc2ywy-QJeCVwirN2zu3Hspf2v5vl2iAP6oy1xLbX4eOq7sPDOHj1qsx_wUMDumC-GRkBqtQ5rSTB2faiSq4jHSAPOA17SHSussEQhGtab_wUx8l5OUJCnOHIranr8edc4lwAuKGjSNXYY6fxiGr2VEP4nOyp51R2wtx36nDm-dPN7-zUbXmcxmWnblcUFXYJDR7Yjg7iyHZhbi0ig8dR_PdM_LitYNQYxGe7D72dS39hyDjJwgCRB_eX4uUjue60");
    (bs "2", bs "{""publicKey"":{""modulus"":""AKbxdQ-_zbTlUgOA34WKNMvM_Z8gAAbXqiAwEgJqPxMXGBBC_dP9Du5OeqpnTqC63751NqgPNcT91Dz8tZ8ysEjm_AbPY-7JixJvjrZ5MXtBJvLoF1gat1tm9GuPVYSYoSKUkcEMino09uk-x1Oh9RBjWRsLelVJgYbHbZJ_OlpczBSgZTMU1B55eLgLFm5FOwsTF4D-eJVBZCFX1mogKTA1-C89DDnUtyPcsV2Qep5u1tqPlvdYocGoxktH08RjRSbzAeLcUZiYv4Qvu_vLJ_NGBRXdEk-M2SGq37f4AVnNCVpdx2Xb30FxEmyjj8G0w59JGE4AyQ7v7X_8ylha_-s"",""publicExponent"":""AQAB"",""size"":2048},""privateExponent"":""bbcchwg4Kh3YI6NLw1jMT_Bd8nk2a0jLbzIIc_vdji9MSkusw-h5Kpb7OQiB_VIzf9lK3XJ5lQh4tsgimQjYIGFl2xfrhmCAfNJCSZwmr-lmrpdn2ChevrxQAGyH-IfSxoY7sFMMozox16LBny4-f9G7GvIVKP4RGUHxuijRcdadBcffD3lev1U3W22oRubLhG28OoX4hsrYCKH6aEnWDLUvyjsqfF5xUh43XDUKlNn7-jmcje31Ju0dQkEJRMgepekBSnmdbhSJv9UgqIpTTOt60OabWSPQxnX3PAOhP8FDEiGXdDIp08FbacxLPPWIDBzyaYYDSSp_-b8c0QlUgQ"",""primeP"":""APZF0TrJ3TD3RDuNwcL3tXuaau0A8Obr9ZNjNcq8XB9Kev1zflRoTFBPUo0JJoWp-dC4G72u_pnQw_dtzr64f6JA-Fcl14HAaxOs2p2dcpcerEotvIGP6IhM5GMmarm4GIwkeOuetMgpJb1py_3p1Gsr7tQkVwBUYyqlyhpmc-Wr"",""primeQ"":""AK2JgCzYijAMuqcJOMA5HYmhcm_uw7-Nx9rfs-o__ZhetmTWXfHfhMoubbXhwg4lFDbjqPmBieagnGm7N8OZ8lgoDptV33HPtv0tmYcDzNS2My30yOOImjrWgakg31xChqQApw19-fi9tKQe2C6C1euWn1Wm9ZQ3HNpRBf5Swo7B"",""primeExponentP"":""F9MBPrKwl0AUdb5s9DOKdv6lQXBJ3c0N4MhEN-yo7M4Dv-kgW4ILf-lsjwBHnb6n0C0_YcZAExlDG_ife4vVrRij7apXgtHeifS64WyN3Vi2SibKia4mTKlDnuPkhzrsBQKyP_kGfCae5AgMF_A7AHMrk5JAaGPBhCqttogaxik"",""primeExponentQ"":""bHTWHbEL1HHwKbrys_g-RKkZO2mO_2Xd9SYAbLOni5YOCkGLn0Ih3LZdrOG2hV6ZHqD0F1PlWrUgbFgsxtutAXmvf1eQ-bFm3R6lqCMw3fQtUlh9QO877O_pQ0mfLysIuPELdrw4AUSW5Ee-tnrgtYeCd2aMbyBusOcYhtU0cUE"",""crtCoefficient"":""AN3ieZrFXOGUzuwwnRYhZQ4P6_c5n6HpSQ4XV9lWPvG_L-qlzfHcZKBmg5fcFcu-0lKuGITG3m30Evd-tDGG3tD0sbt-9jqqTyK-A2iQmfZur_DubU-xncjoNGVeuxIwMa_KP0vj53E3gB9MGBbgEBm34P9MUR39O3D_AfpSdMCM"",""size"":2048}");
    (bs "2.out", bs "APwFIByTqvYgpAn_DNWZW7fpCetYdI_pddEEEYDMjlRE1fw_5TTo3I0bbf6WADE3wAe5g0hShzMNkjFl7zOpIQzIjbs_JdSpFyJp2u70PifXagDBdHysGi5TFDrfUkizqfFFpVIwTZ82WpS-U8xO4K__80SKmdzjce60jWlfvAmoMDj2-bh6yXO8Li7wr98wj-3GXwcezha0LT_yy6N_vmWEt049ceTWuNm0zUOJoiEWfNYmQuRE-2lAJl2lmcFhheOzr1iHyex9h7V6-OWfTtalIEYEoCaSeDWHUT6mRE5KFMb7kL-HTgpYbddIfITfkAwIBvnypLArsECUkKIeOwNTwGPo");
    (bs "meta", bs "{""name"":""test"",""purpose"":""DECRYPT_AND_ENCRYPT"",""type"":""RSA_PRIV"",""versions"":[{""exportable"":false,""status"":""ACTIVE"",""versionNumber"":1},{""exportable"":false,""status"":""PRIMARY"",""versionNumber"":2}],""encrypted"":false}")]);
  (bs "jtestdata/rsa-sign", [(bs "1", bs "{""publicKey"":{""modulus"":""ALCQk9Ne64cFuOI8vngAbebkkf8tFpj1zwRYwVz5Hm0blP4eKIXfcm58ztHcqeVlA-jtFcoI1FSjPo2vaBbv29zK7Jwe_Bmc0rwl0MhWF7tntYXhGl1AL5_15ZdcfBPQLbEtAyPtPTqpKtBx7XsUwYNes9apDwlwdZYGIGHiubk6xCBSGSJpBEN85brYpzxGB21SZWvOo4JUtqK7GXLrWRAR4QQZWr3BVrYu2e6vi0ne_EwmH7jwK52i1lbfwAl31GCmkslNtiky8Woq-YLKZh-8N0Efg0UZPAnKjyE1d59HN3c1rzI7zn6v8hq3i2nccTrgJOzNOu6jme-cVvG_Rzk"",""publicExponent"":""AQAB"",""size"":2048},""privateExponent"":""V3LT9G1fw9ker9acE31K8X-lm7fuKEYeiS2YX373Bd0SVyYCtgNsfrKMEL702qvEWvoJv63N1DmiArSsniegQmOy-sQR4nGcohkspfyV9niwHCXYU_U1YUl9tBDXV0zVRJphosqed85PaTvz_fDSw0kFUz0aOHedlXdlVHXhvI47onFTAVKKUd0ORPGSqXgVJ6A9qxoJLC7EjnMUa8o02RBn8Q7zcF19leFuKvphZG7MdWUtjzabTAL8RwUDUVn7G5-fT0-wR5j4Xu2n19KtYFttvKlEDQqtU7idh8XZelUIW3_4_tdoPVBWpy4j9bgzkEdiQGX08nPP-TbNUiwy_Q"",""primeP"":""AP3_SHDRqtOLqk5Z0Ytd5GMcVowiN_nWKLuBtgK7GIav6btSuB-b0oeVOohc1NqBH6a20BEoNf8SD5SUHOaHEAvdE_jtDID5RSfYQM6CBpk2cFLtQzNDLiKIe4Zy8VD4S6sR3lLwmgc8cqTzqcuvd3zSOREauaugp00ovykjMr-f"",""primeQ"":""ALH0_WfXzyhk67XAWYmlTl6LIW1qfrFCC-g48ZHbWVPOEPe5ewBZZNYnK0otMJVlAChJmfSRLvFplqVdMxfMCvN-HfhwtZb1YfQQtDEoqxbbvY6IkYwYW9DfK7z4uSKOu_2VhQF0zoMWOeT-km_DovF8o230GUZpMniy10qF7Con"",""primeExponentP"":""a7scaaW0c_eYK5VTGG6hkRwS5WsaHOCl9CnnHi9nDrGMTISgTd_Uouc7pVzidy8vUpHVnIFWrbJmY1mTDIAa4T1K3FkG5alUmLrTegOScuexKqsxxotnBQSoh_U2v2YhChURHFKqsgkEg0xKJ3dsEchEpimUuOPyMfrnYbZpLvc"",""primeExponentQ"":""enlRrZYpTHOohX3MIZ9TQF4gs10HtJbv-vK1ztxXrgW0R8mvjZ34eCqc8IAJX8gTQ6bj_h2tYRh6RXTPJSGYp9u0ZLetQie_MmoMmYiTtzekTeRPx0s8ZZQyVewX_mCdoPi2gToSpsU1MxTBU4ohKnHNSG8mtf7QbaEn6nIhByE"",""crtCoefficient"":""XpYnBtzjQUfSBCEj9Kg7pOwx9iz_38gZH3qIkpcRCYNHN0wwhlG1CTP2eNcD9JvdK93IPgeqWnMIq5hnU0Gv6TOVkcrS9vbHxUwqK7ch0RXvJ4bf2ddVlESp-V3vcrgEJPKVywhfoq019qymvPlwoY2DNxn6d7nk8It_Qhs5Jgg"",""size"":2048}");
    (bs "1.out", bs "AP4Kc4EMnXEqZyeVXl29QuV0Dy53J9-a9FbpBhK2dQ6OWBkLAhVZZXqxLHFfKEcOEqmhqX1tVE1D-XkW9mqAKbYaWEVPDjPOvAIMc9I1b2FtTHjdZv7v-NJeJ8pvhXaGsVu5vIHxDM6q7wGSBrPx5YSgdoYhFyL3CEt1rcmT2fDJov1fiRoMI6RJ-xDW-Avhc9q74VPQCo1YrZVv7By9o5gu4mqBcLW2V5TSIaZWE_Y0VkMbkf-UvMBnjzIPUtuCSiSNkLWRf9mSJnYdyXmIMbVoWZMLPY7yuT8gFAh5D7-suaMA-YOG5bphAkaxr60iPKGLKIfWzUGv7tqHnGWUGu9VZFoi");
    (bs "2", bs "{""publicKey"":{""modulus"":""AIXhlPK9JAd4gsXQFeG6JEnv2Mk4lYV2JxjHeX7vT0RPu_FImvt79WDQYc-gfYDM_OhmkqdU_t25ciBhXhwcfbrQ3K7kluewCbSi-hZMf1hzHQbw0uoOXYLJ7Wrf6uVMmy-GNjcyE5Z1KlpENDrozUXq-7QVl08T1u0Y0spkxBsF0DU6kyawk_Ce-hl2_P7f6aYaUdMDS0XDzCIc3c4mqRaEkBXvA5n5VFAybasVb7s6wtezLQm1lf4QPQXk7eoL2opjPsAoqf-PRMXVxLhh7sR0qG0pkChG2yAhOw53n6sD3w9Zs13wkzTu6b94jjIzDPkkiDPTGr_OhmSyqvXuuxU"",""publicExponent"":""AQAB"",""size"":2048},""privateExponent"":""Mk4FuoOpMwlsEcnTPwLDOejeSxVw0ToJDL1_AFwJK8DN_KZsXYxBMgR6jBpgrfHYIbbQ6gD81vEkWdhcFTH7aCOsmCaaMSorK22FjLVnsCNox7_bcEi_iDI5fEvwpgH32Y6Tdn_hbkpOBKbV_UCWSOw3cX4fYX4x5trJ8XSVXxVv7IfMMYnQf7OnQ6Vn1qtiTB2RH6PN9YqkMSt8e9pv6Kc3Q7iHiZoA5kyeSfBeg4DPkRt1YxssZe4W055R4Xv_5GJ8Wlrr-TPUaiGsQGSA5im4b8LjZ0kyltOKYCx2s52_upUy0axRbfRrQPcr_GXZfXR8TfzBsjxm-nPxmMMwbQ"",""primeP"":""AL6KexVs6QQVt-2H8MJQKzohpU2CfDOpL8XwksaIzBUsXdAICKeRZit4-HTtRTNRC2YCly-YhYcMEHqjAPmAk5rk9bN1OKKb1o2mAX6x768QdbjMhxI80vw0rHfsedwpKRMf5MB20NzHCK47mKx2hUIPqml9TFXmbfrWv13yMDJ_"",""primeQ"":""ALPgCl2T9YL4GmfHgOQdW50R390j-LFdLXNCX7CA5w-C0yhGNNX0qTbp5w7TuKHsDDaWLrU8iW_63JpQH88yUgzOWlB5YkGLCoEQ266OQEBx1w0NqfmpKW_pYs5s_T7FZHTAZ9MyUPeuiFA68U5NaS47TcCqmgaH3zepKEnWJmBr"",""primeExponentP"":""PqgtJ3OEAJrfu9V7H3rbbCdKQ33IN_jHw_CDY5PygHfxdYpexjOzBFKoaVLo8aIR_H6XlsgyCKG3_YwCswlMAKCQB25hrF9Qo43WagI7Tjc8bwOa2y1zOApeOKVjwTkrz6UqRPwNXLx6p0jjwLrMwVeDc2MHqiu3OMhLb6pHnSM"",""primeExponentQ"":""dNKZaNVjqsAARk6oQ39dtNGbF0D5kBf4INeG1lehuc053vpZ7muMSwH28wZG78Mi24EGrOa4TGYdSIupXSRNbcvHlGSBkBgBpnmQc_oneLN2_B9XubJIG0r0xSS8BTymVb1wsRYIyBQurAzcFALqwP_7K5qhloRAUSIn7GyNWCk"",""crtCoefficient"":""X0zxQaY1jOxm_QkiJZ0UIFjvjabfR9K1n-QHhn9zNz9t2-frtP0kuyZCJ3SxkzmT23CjwkvUsYKyCmyv4iDXZdGKN626AYCXfISanOOhNb2dmPF7PPFDGUW7-B4InSyBmsr9Ggk-GJ4Grq0rmtOEnODUzODQH7UYP2N0-WeiZHo"",""size"":2048}");
    (bs "2.out", bs "ADbghgE_pbkQA92uco5MkIjnzgVMYBkR8ZivTfdmey3D4Nem8-T9AIXc4SLZMvgXIVC6Hb1kancGm5ciD01QpbKqQudP7bxASyZlmHF85ye01KzcF_n3sFC81eX6yuLk0FAf7fNdcfpVBKig2zG1ne6dPhJfAtlGgQXKrxifxfMSacrxnVPMj6pRY4573VU8ZEMZW4lREtCrYuQwKKuU26_n4X-4-xtsGl3tZn_lRqEITJmqNcp_oV3SrPc1ZxVxeLbGiHGXQBRYqM2hFNwBbzAmwz7bumVzkyueqUK0MTsDBGRDar85yNjHcFOHsSoE-FpFgJkJVarg5JePeoW09Q6tG1_9");
    (bs "meta", bs "{""name"":""test"",""purpose"":""SIGN_AND_VERIFY"",""type"":""RSA_PRIV"",""versions"":[{""exportable"":false,""status"":""ACTIVE"",""versionNumber"":1},{""exportable"":false,""status"":""PRIMARY"",""versionNumber"":2}],""encrypted"":false}")]);
  (bs "jtestdata/rsa-sign.public", [(bs "1", bs "{""modulus"":""ALCQk9Ne64cFuOI8vngAbebkkf8tFpj1zwRYwVz5Hm0blP4eKIXfcm58ztHcqeVlA-jtFcoI1FSjPo2vaBbv29zK7Jwe_Bmc0rwl0MhWF7tntYXhGl1AL5_15ZdcfBPQLbEtAyPtPTqpKtBx7XsUwYNes9apDwlwdZYGIGHiubk6xCBSGSJpBEN85brYpzxGB21SZWvOo4JUtqK7GXLrWRAR4QQZWr3BVrYu2e6vi0ne_EwmH7jwK52i1lbfwAl31GCmkslNtiky8Woq-YLKZh-8N0Efg0UZPAnKjyE1d59HN3c1rzI7zn6v8hq3i2nccTrgJOzNOu6jme-cVvG_Rzk"",""publicExponent"":""AQAB"",""size"":2048}");
    (bs "2", bs "{""modulus"":""AIXhlPK9JAd4gsXQFeG6JEnv2Mk4lYV2JxjHeX7vT0RPu_FImvt79WDQYc-gfYDM_OhmkqdU_t25ciBhXhwcfbrQ3K7kluewCbSi-hZMf1hzHQbw0uoOXYLJ7Wrf6uVMmy-GNjcyE5Z1KlpENDrozUXq-7QVl08T1u0Y0spkxBsF0DU6kyawk_Ce-hl2_P7f6aYaUdMDS0XDzCIc3c4mqRaEkBXvA5n5VFAybasVb7s6wtezLQm1lf4QPQXk7eoL2opjPsAoqf-PRMXVxLhh7sR0qG0pkChG2yAhOw53n6sD3w9Zs13wkzTu6b94jjIzDPkkiDPTGr_OhmSyqvXuuxU"",""publicExponent"":""AQAB"",""size"":2048}");
    (bs "meta", bs "{""name"":""test"",""purpose"":""VERIFY"",""type"":""RSA_PUB"",""versions"":[{""exportable"":false,""status"":""ACTIVE"",""versionNumber"":1},{""exportable"":false,""status"":""PRIMARY"",""versionNumber"":2}],""encrypted"":false}")])].

Definition message : str := bs "This is some test data".

(** The set in a directory, and a stored output. *)
Definition golden_set (c : kclass) (l : string) (crypter : option keyset) : res keyset :=
  snd (exec (open_files c (bs l) crypter) golden_disk).
Definition golden_out (l n : string) : res str := snd (exec (ReadFile (bs l) (bs n)) golden_disk).

Definition is_true (r : res bool) : bool := match r with Ok b => b | Raise _ => false end.
Definition decrypts (l : string) (crypter : option keyset) (n : string) : bool :=
  is_true (let* ks := golden_set Crypter l crypter in let* c := golden_out l n in
           let* m := Decrypt ks c b64_decoder in Ok (str_eqb m message)).
Definition verifies (c : kclass) (l out n : string) : bool :=
  is_true (let* ks := golden_set c l None in let* s := golden_out out n in Verify ks message s b64_decoder).

(** AES, testdata, version 1 *)
Definition check_1 : bool := Eval vm_compute in decrypts "testdata/aes" None "1.out".
Example golden_1 : check_1 = true. Proof. reflexivity. Qed.

(** HMAC, testdata, version 1 *)
Definition check_2 : bool := Eval vm_compute in verifies Signer "testdata/hmac" "testdata/hmac" "1.out".
Example golden_2 : check_2 = true. Proof. reflexivity. Qed.

(** AES, testdata, version 2 *)
Definition check_3 : bool := Eval vm_compute in decrypts "testdata/aes" None "2.out".
Example golden_3 : check_3 = true. Proof. reflexivity. Qed.

(** HMAC, testdata, version 2 *)
Definition check_4 : bool := Eval vm_compute in verifies Signer "testdata/hmac" "testdata/hmac" "2.out".
Example golden_4 : check_4 = true. Proof. reflexivity. Qed.

Definition crypter_testdata : option keyset := Eval vm_compute in match golden_set Crypter "testdata/aes" None with Ok ks => Some ks | Raise _ => None end.
(** An encrypted AES set, testdata, version 1 *)
Definition check_5 : bool := Eval vm_compute in decrypts "testdata/aes-crypted" crypter_testdata "1.out".
Example golden_5 : check_5 = true. Proof. reflexivity. Qed.

(** An encrypted AES set, testdata, version 2 *)
Definition check_6 : bool := Eval vm_compute in decrypts "testdata/aes-crypted" crypter_testdata "2.out".
Example golden_6 : check_6 = true. Proof. reflexivity. Qed.

(** AES, jtestdata, version 1 *)
Definition check_7 : bool := Eval vm_compute in decrypts "jtestdata/aes" None "1.out".
Example golden_7 : check_7 = true. Proof. reflexivity. Qed.

(** HMAC, jtestdata, version 1 *)
Definition check_8 : bool := Eval vm_compute in verifies Signer "jtestdata/hmac" "jtestdata/hmac" "1.out".
Example golden_8 : check_8 = true. Proof. reflexivity. Qed.

(** AES, jtestdata, version 2 *)
Definition check_9 : bool := Eval vm_compute in decrypts "jtestdata/aes" None "2.out".
Example golden_9 : check_9 = true. Proof. reflexivity. Qed.

(** HMAC, jtestdata, version 2 *)
Definition check_10 : bool := Eval vm_compute in verifies Signer "jtestdata/hmac" "jtestdata/hmac" "2.out".
Example golden_10 : check_10 = true. Proof. reflexivity. Qed.

Definition crypter_jtestdata : option keyset := Eval vm_compute in match golden_set Crypter "jtestdata/aes" None with Ok ks => Some ks | Raise _ => None end.
(** An encrypted AES set, jtestdata, version 1 *)
Definition check_11 : bool := Eval vm_compute in decrypts "jtestdata/aes-crypted" crypter_jtestdata "1.out".
Example golden_11 : check_11 = true. Proof. reflexivity. Qed.

(** An encrypted AES set, jtestdata, version 2 *)
Definition check_12 : bool := Eval vm_compute in decrypts "jtestdata/aes-crypted" crypter_jtestdata "2.out".
Example golden_12 : check_12 = true. Proof. reflexivity. Qed.

(** RSA decryption raises the ciphertext to a 2048-bit power, which takes too long here.  Instead
    the number [em], found outside Coq, is checked to be what decryption computes: its e-th power
    is the ciphertext; and it is decoded by the model. *)
Definition rsa_decrypts (l n : string) (em : Z) : bool :=
  is_true (let* ks := golden_set Crypter l None in let* c := golden_out l n in
           let* raw := Base64WSDecode c in let* k := ParseHeader ks (slice_to raw HEADER_SIZE) in
           match k with
           | KRsaPriv k =>
               let* c := rsa_public (rn_pub (rs_key k)) em in
               let* m := oaep_decode (num_bytes (rn_n (rn_pub (rs_key k)))) (long_to_bytes em) in
               Ok ((c =? bytes_to_long (slice_from raw HEADER_SIZE)) && str_eqb m message)
           | _ => Ok false
           end).

Definition em_testdata_1 : Z := 59802519853844302136282865677722907429981515409202170683515790538119205988267501743681058955940888961879526752904528777166788456203332500593729235250885017651688168050048494473704700438611419322838517061851261656217190459023914243501248849023141407347778260798527450052315255900998436664419069325565825094030578582991668369479156260082804341524719715702432850904223696223830713527611077709053271608247460633625463890165817118133908507393619716756001726395925888659307170524360964267498708955354423594283219962318263055906069612812311753514578702433058903074266249267939935722490604896182231804936763160714328347676.
(** RSA encryption, testdata, version 1 *)
Definition check_13 : bool := Eval vm_compute in rsa_decrypts "testdata/rsa" "1.out" em_testdata_1.
Example golden_13 : check_13 = true. Proof. reflexivity. Qed.

Definition em_testdata_2 : Z := 121436565552401329898614441916877873484661922908668716339380655159883270657192095216707771842246765583249961789139026160350908282851108621307505830293758244476153813296678544078863109275140061636423179569261041162014399182189297579053764229126782260240980034228743701389332808250434823678016658998587707135309628349309431884919013985910165666445895153120793788220565093907288007180164952725899163732089917888126919897255780898251135866882768030146487926476565759617118889153523254301089867011417767025085826013053370855333510872929988677508447846874155839066320488847603381211953768104062127016874633804553338204519.
(** RSA encryption, testdata, version 2 *)
Definition check_14 : bool := Eval vm_compute in rsa_decrypts "testdata/rsa" "2.out" em_testdata_2.
Example golden_14 : check_14 = true. Proof. reflexivity. Qed.

Definition em_jtestdata_1 : Z := 38560313089617708594289543768607848351456079391490241463916525457972023560058098628337364773123992560739123927648211671733259223063428229137139802664247343193368910594582574459028923755231640378941113683369638345574627786014709860372095510439071276371122343242192856365920087931955262416709876501505155765313111782228775760788173965702197818588252120134731946120105288719563668525124079176457417372778963049352396158189883608870256868006654958704519751894132860626010599261193577974538530292651380353151415665932017678569212317227058192000747040407497005449928046935544771930959339783500930552562854365941894766214.
(** RSA encryption, jtestdata, version 1 *)
Definition check_15 : bool := Eval vm_compute in rsa_decrypts "jtestdata/rsa" "1.out" em_jtestdata_1.
Example golden_15 : check_15 = true. Proof. reflexivity. Qed.

Definition em_jtestdata_2 : Z := 54164415302061301610400569367685327045473632026897514125564810006761161523771612825591348282211362527796550271864538387400164153640801026054413986416510895912462177582157897768660975509744392372432132424649817897321561245072674710601877613497277447279920189055935692863302184976114150868118542690982437043625325627684105121393211397672147359058189105100140326682835631171707279467292199957550494474654955855846706466145980588621374681040969299789014547340705754721531523597241403888359228251075662879544436934238826452798271661010418177911875654447037259927133220620374478382351428835974858233391332574081857191919.
(** RSA encryption, jtestdata, version 2 *)
Definition check_16 : bool := Eval vm_compute in rsa_decrypts "jtestdata/rsa" "2.out" em_jtestdata_2.
Example golden_16 : check_16 = true. Proof. reflexivity. Qed.

(** RSA signatures, testdata, version 1 *)
Definition check_17 : bool := Eval vm_compute in verifies Signer "testdata/rsa-sign" "testdata/rsa-sign" "1.out".
Example golden_17 : check_17 = true. Proof. reflexivity. Qed.

(** RSA signatures, testdata, version 2 *)
Definition check_18 : bool := Eval vm_compute in verifies Signer "testdata/rsa-sign" "testdata/rsa-sign" "2.out".
Example golden_18 : check_18 = true. Proof. reflexivity. Qed.

(** and with the exported public keys *)
Definition check_19 : bool := Eval vm_compute in verifies Verifier "testdata/rsa-sign.public" "testdata/rsa-sign" "2.out".
Example golden_19 : check_19 = true. Proof. reflexivity. Qed.

(** RSA signatures, jtestdata, version 1 *)
Definition check_20 : bool := Eval vm_compute in verifies Signer "jtestdata/rsa-sign" "jtestdata/rsa-sign" "1.out".
Example golden_20 : check_20 = true. Proof. reflexivity. Qed.

(** RSA signatures, jtestdata, version 2 *)
Definition check_21 : bool := Eval vm_compute in verifies Signer "jtestdata/rsa-sign" "jtestdata/rsa-sign" "2.out".
Example golden_21 : check_21 = true. Proof. reflexivity. Qed.

(** and with the exported public keys *)
Definition check_22 : bool := Eval vm_compute in verifies Verifier "jtestdata/rsa-sign.public" "jtestdata/rsa-sign" "2.out".
Example golden_22 : check_22 = true. Proof. reflexivity. Qed.

(** A DSA signature, testdata, version 1 *)
Definition check_23 : bool := Eval vm_compute in verifies Signer "testdata/dsa" "testdata/dsa" "1.out".
Example golden_23 : check_23 = true. Proof. reflexivity. Qed.

(** A DSA signature, jtestdata, version 2, with the exported public keys *)
Definition check_24 : bool := Eval vm_compute in verifies Verifier "jtestdata/dsa.public" "jtestdata/dsa" "2.out".
Example golden_24 : check_24 = true. Proof. reflexivity. Qed.

(** Encrypting and signing give the stored bytes again; the random bytes of the encryption, its
    initialization vector, are taken from the stored ciphertext. *)
Definition encrypts_again (l : string) (crypter : option keyset) (n : string) (lib : cryptlib) : bool :=
  is_true (let* ks := golden_set Crypter l crypter in let* c := golden_out l n in let* raw := Base64WSDecode c in
           let iv := slice raw HEADER_SIZE (HEADER_SIZE + 16) in
           let* c' := Encrypt (MkEnv lib (fun i => nth i iv x00) 0) ks message b64_encoder in Ok (str_eqb c' c)).
Definition signs_again (l n : string) : bool :=
  is_true (let* ks := golden_set Signer l None in let* s := golden_out l n in
           let* s' := Sign (MkEnv PyCrypto (fun _ => x00) 0) ks message b64_encoder in Ok (str_eqb s' s)).

(** AES, testdata *)
Definition check_25 : bool := Eval vm_compute in encrypts_again "testdata/aes" None "2.out" PyCrypto.
Example golden_25 : check_25 = true. Proof. reflexivity. Qed.

(** AES with the other library, testdata *)
Definition check_26 : bool := Eval vm_compute in encrypts_again "testdata/aes-crypted" crypter_testdata "2.out" M2Crypto.
Example golden_26 : check_26 = true. Proof. reflexivity. Qed.

(** HMAC, testdata *)
Definition check_27 : bool := Eval vm_compute in signs_again "testdata/hmac" "2.out".
Example golden_27 : check_27 = true. Proof. reflexivity. Qed.

(** AES, jtestdata *)
Definition check_28 : bool := Eval vm_compute in encrypts_again "jtestdata/aes" None "2.out" PyCrypto.
Example golden_28 : check_28 = true. Proof. reflexivity. Qed.

(** AES with the other library, jtestdata *)
Definition check_29 : bool := Eval vm_compute in encrypts_again "jtestdata/aes-crypted" crypter_jtestdata "2.out" M2Crypto.
Example golden_29 : check_29 = true. Proof. reflexivity. Qed.

(** HMAC, jtestdata *)
Definition check_30 : bool := Eval vm_compute in signs_again "jtestdata/hmac" "2.out".
Example golden_30 : check_30 = true. Proof. reflexivity. Qed.


(** The test vectors of bip0039/tests (test_EN_BIP39.json, test_JP_BIP39.json) run
    through the model.  These are tests of the model, not property theorems. *)
From Verif Require Import Base Sha2 Str Unicode UnicodeTables Language39 BuildScript39 Builtin39 Mnemonic39
  Words_english Words_chinese_simplified Words_chinese_traditional Words_czech Words_french
  Words_italian Words_japanese Words_korean Words_portuguese Words_spanish.

Definition vec_build : build := {| b_debug := true; b_usize_bits := 64 |}.
Definition text (hex : string) : str := match utf8_decode (unhex hex) with Some s => s | None => [] end.

(** Entropy and UTF-8 of the mnemonic, both in hex: encoding gives the mnemonic
    (up to the choice of space) and parsing gives the entropy back. *)
Definition check (L : Language) (v : string * string) : bool :=
  let '(e, p) := v in
  match from_entropy vec_build L (unhex e), from_phrase ucd15 L (text p) with
  | Ok m1, Ok m2 =>
      str_eqb (m_phrase m1) (nfkd ucd15 (text p)) && str_eqb (m_phrase m2) (m_phrase m1)
      && bytes_eqb (m_entropy m2) (unhex e)
  | _, _ => false
  end.

Definition vectors_en : list (string * string) := [
  ("00000000000000000000000000000000", "6162616e646f6e206162616e646f6e206162616e646f6e206162616e646f6e206162616e646f6e206162616e646f6e206162616e646f6e206162616e646f6e206162616e646f6e206162616e646f6e206162616e646f6e2061626f7574");
  ("7f7f7f7f7f7f7f7f7f7f7f7f7f7f7f7f", "6c6567616c2077696e6e6572207468616e6b20796561722077617665207361757361676520776f7274682075736566756c206c6567616c2077696e6e6572207468616e6b2079656c6c6f77");
  ("80808080808080808080808080808080", "6c65747465722061647669636520636167652061627375726420616d6f756e7420646f63746f722061636f75737469632061766f6964206c65747465722061647669636520636167652061626f7665");
  ("ffffffffffffffffffffffffffffffff", "7a6f6f207a6f6f207a6f6f207a6f6f207a6f6f207a6f6f207a6f6f207a6f6f207a6f6f207a6f6f207a6f6f2077726f6e67");
  ("000000000000000000000000000000000000000000000000", "6162616e646f6e206162616e646f6e206162616e646f6e206162616e646f6e206162616e646f6e206162616e646f6e206162616e646f6e206162616e646f6e206162616e646f6e206162616e646f6e206162616e646f6e206162616e646f6e206162616e646f6e206162616e646f6e206162616e646f6e206162616e646f6e206162616e646f6e206167656e74");
  ("7f7f7f7f7f7f7f7f7f7f7f7f7f7f7f7f7f7f7f7f7f7f7f7f", "6c6567616c2077696e6e6572207468616e6b20796561722077617665207361757361676520776f7274682075736566756c206c6567616c2077696e6e6572207468616e6b20796561722077617665207361757361676520776f7274682075736566756c206c6567616c2077696c6c");
  ("808080808080808080808080808080808080808080808080", "6c65747465722061647669636520636167652061627375726420616d6f756e7420646f63746f722061636f75737469632061766f6964206c65747465722061647669636520636167652061627375726420616d6f756e7420646f63746f722061636f75737469632061766f6964206c657474657220616c77617973");
  ("ffffffffffffffffffffffffffffffffffffffffffffffff", "7a6f6f207a6f6f207a6f6f207a6f6f207a6f6f207a6f6f207a6f6f207a6f6f207a6f6f207a6f6f207a6f6f207a6f6f207a6f6f207a6f6f207a6f6f207a6f6f207a6f6f207768656e");
  ("0000000000000000000000000000000000000000000000000000000000000000", "6162616e646f6e206162616e646f6e206162616e646f6e206162616e646f6e206162616e646f6e206162616e646f6e206162616e646f6e206162616e646f6e206162616e646f6e206162616e646f6e206162616e646f6e206162616e646f6e206162616e646f6e206162616e646f6e206162616e646f6e206162616e646f6e206162616e646f6e206162616e646f6e206162616e646f6e206162616e646f6e206162616e646f6e206162616e646f6e206162616e646f6e20617274");
  ("7f7f7f7f7f7f7f7f7f7f7f7f7f7f7f7f7f7f7f7f7f7f7f7f7f7f7f7f7f7f7f7f", "6c6567616c2077696e6e6572207468616e6b20796561722077617665207361757361676520776f7274682075736566756c206c6567616c2077696e6e6572207468616e6b20796561722077617665207361757361676520776f7274682075736566756c206c6567616c2077696e6e6572207468616e6b20796561722077617665207361757361676520776f727468207469746c65");
  ("8080808080808080808080808080808080808080808080808080808080808080", "6c65747465722061647669636520636167652061627375726420616d6f756e7420646f63746f722061636f75737469632061766f6964206c65747465722061647669636520636167652061627375726420616d6f756e7420646f63746f722061636f75737469632061766f6964206c65747465722061647669636520636167652061627375726420616d6f756e7420646f63746f722061636f757374696320626c657373");
  ("ffffffffffffffffffffffffffffffffffffffffffffffffffffffffffffffff", "7a6f6f207a6f6f207a6f6f207a6f6f207a6f6f207a6f6f207a6f6f207a6f6f207a6f6f207a6f6f207a6f6f207a6f6f207a6f6f207a6f6f207a6f6f207a6f6f207a6f6f207a6f6f207a6f6f207a6f6f207a6f6f207a6f6f207a6f6f20766f7465");
  ("77c2b00716cec7213839159e404db50d", "6a656c6c7920626574746572206163686965766520636f6c6c65637420756e6177617265206d6f756e7461696e2074686f7567687420636172676f206f787967656e2061637420686f6f6420627269646765");
  ("b63a9c59a6e641f288ebc103017f1da9f8290b3da6bdef7b", "72656e657720737461792062696f6c6f67792065766964656e636520676f61742077656c636f6d652063617375616c206a6f696e2061646170742061726d6f722073687566666c65206661756c74206c6974746c65206d616368696e652077616c6b207374756d626c6520757267652073776170");
  ("3e141609b97933b66a060dcddc71fad1d91677db872031e85f4c015c5e7e8982", "6469676e6974792070617373206c69737420696e646963617465206e61737479207377616d7020706f6f6c2073637269707420736f6363657220746f65206c6561662070686f746f206d756c7469706c79206465736b20686f737420746f6d61746f20637261646c65206472696c6c20737072656164206163746f72207368696e65206469736d697373206368616d70696f6e2065786f746963");
  ("0460ef47585604c5660618db2e6a7e7f", "6166666f726420616c746572207370696b65207261646172206761746520676c616e6365206f626a656374207365656b207377616d7020696e66616e742070616e656c2079656c6c6f77");
  ("72f60ebac5dd8add8d2a25a797102c3ce21bc029c200076f", "696e64696361746520726163652070757368206d65727279207375666665722068756d616e2063727569736520647761726620706f6c65207265766965772061726368206b6565702063616e766173207468656d6520706f656d206469766f72636520616c746572206c656674");
  ("2c85efc7f24ee4573d2b81a6ec66cee209b2dcbd09d8eddc51e0215b0b68e416", "636c7574636820636f6e74726f6c2076656869636c6520746f6e6967687420756e757375616c20636c6f6720766973612069636520706c756e676520676c696d7073652072656369706520736572696573206f70656e20686f75722076696e74616765206465706f73697420756e69766572736520746970206a6f6220647265737320726164617220726566757365206d6f74696f6e207461737465");
  ("eaebabb2383351fd31d703840b32e9e2", "747572746c652066726f6e7420756e636c652069646561206372757368207772697465207368727567207468657265206c6f747465727920666c6f776572207269736b207368656c6c");
  ("7ac45cfe7722ee6c7ba84fbc2d5bd61b45cb2fe5eb65aa78", "6b69737320636172727920646973706c617920756e757375616c20636f6e6669726d206375727461696e207570677261646520616e746971756520726f746174652068656c6c6f20766f696420637573746f6d206672657175656e74206f626579206e757420686f6c65207072696365207365676d656e74");
  ("4fa1a8bc3e6d80ee1316050e862c1812031493212b7ec3f3bb1b08f168cabeef", "6578696c652061736b20636f6e6772657373206c616d70207375626d6974206a61636b65742065726120736368656d6520617474656e6420636f7573696e20616c636f686f6c20636174636820636f7572736520656e64206c75636b7920687572742073656e74656e6365206f76656e2073686f72742062616c6c206269726420677261622077696e6720746f70");
  ("18ab19a9f54a9274f03e5209a2ac8a91", "626f61726420666c65652068656176792074756e6e656c20706f776465722064656e69616c20736369656e636520736b6920616e737765722062657472617920636172676f20636174");
  ("18a2e1d81b8ecfb2a333adcb0c17a5b9eb76cc5d05db91a4", "626f61726420626c61646520696e766974652064616d61676520756e646f2073756e206d696d696320696e74657265737420736c616d2067617a65207472756c7920696e68657269742072657369737420677265617420696e6a65637420726f636b6574206d757365756d206368696566");
  ("15da872c95a13dd738fbf50e427583ad61f18fd99f628c417a61cf8343c90419", "6265796f6e6420737461676520736c65657020636c6970206265636175736520747769737420746f6b656e206c6561662061746f6d206265617574792067656e69757320666f6f6420627573696e6573732073696465206772696420756e61626c65206d6964646c652061726d6564206f62736572766520706169722063726f75636820746f6e69676874206177617920636f636f6e7574")
]%string.

Definition vectors_jp : list (string * string) := [
  ("00000000000000000000000000000000", "e38182e38184e38193e3818fe38197e38293e38080e38182e38184e38193e3818fe38197e38293e38080e38182e38184e38193e3818fe38197e38293e38080e38182e38184e38193e3818fe38197e38293e38080e38182e38184e38193e3818fe38197e38293e38080e38182e38184e38193e3818fe38197e38293e38080e38182e38184e38193e3818fe38197e38293e38080e38182e38184e38193e3818fe38197e38293e38080e38182e38184e38193e3818fe38197e38293e38080e38182e38184e38193e3818fe38197e38293e38080e38182e38184e38193e3818fe38197e38293e38080e38182e3818ae3819ee38289");
  ("7f7f7f7f7f7f7f7f7f7f7f7f7f7f7f7f", "e3819de381a4e38186e38080e3828ce3818de381a0e38184e38080e381bbe38293e38284e3818fe38080e3828fe3818be38199e38080e3828ae3818fe381a4e38080e381b0e38184e3818be38080e3828de3819be38293e38080e38284e381a1e38293e38080e3819de381a4e38186e38080e3828ce3818de381a0e38184e38080e381bbe38293e38284e3818fe38080e3828fe3818be38281");
  ("80808080808080808080808080808080", "e3819de381a8e381a5e38289e38080e38182e381bee381a9e38080e3818ae3818ae38186e38080e38182e38193e3818ce3828ce3828be38080e38184e3818fe381b6e38293e38080e38191e38184e38191e38293e38080e38182e3819fe38188e3828be38080e38184e38288e3818fe38080e3819de381a8e381a5e38289e38080e38182e381bee381a9e38080e3818ae3818ae38186e38080e38182e3818be381a1e38283e38293");
  ("ffffffffffffffffffffffffffffffff", "e3828fe3828ce3828be38080e3828fe3828ce3828be38080e3828fe3828ce3828be38080e3828fe3828ce3828be38080e3828fe3828ce3828be38080e3828fe3828ce3828be38080e3828fe3828ce3828be38080e3828fe3828ce3828be38080e3828fe3828ce3828be38080e3828fe3828ce3828be38080e3828fe3828ce3828be38080e3828de38293e381b6e38293");
  ("000000000000000000000000000000000000000000000000", "e38182e38184e38193e3818fe38197e38293e38080e38182e38184e38193e3818fe38197e38293e38080e38182e38184e38193e3818fe38197e38293e38080e38182e38184e38193e3818fe38197e38293e38080e38182e38184e38193e3818fe38197e38293e38080e38182e38184e38193e3818fe38197e38293e38080e38182e38184e38193e3818fe38197e38293e38080e38182e38184e38193e3818fe38197e38293e38080e38182e38184e38193e3818fe38197e38293e38080e38182e38184e38193e3818fe38197e38293e38080e38182e38184e38193e3818fe38197e38293e38080e38182e38184e38193e3818fe38197e38293e38080e38182e38184e38193e3818fe38197e38293e38080e38182e38184e38193e3818fe38197e38293e38080e38182e38184e38193e3818fe38197e38293e38080e38182e38184e38193e3818fe38197e38293e38080e38182e38184e38193e3818fe38197e38293e38080e38182e38289e38184e38190e381be");
  ("7f7f7f7f7f7f7f7f7f7f7f7f7f7f7f7f7f7f7f7f7f7f7f7f", "e3819de381a4e38186e38080e3828ce3818de381a0e38184e38080e381bbe38293e38284e3818fe38080e3828fe3818be38199e38080e3828ae3818fe381a4e38080e381b0e38184e3818be38080e3828de3819be38293e38080e38284e381a1e38293e38080e3819de381a4e38186e38080e3828ce3818de381a0e38184e38080e381bbe38293e38284e3818fe38080e3828fe3818be38199e38080e3828ae3818fe381a4e38080e381b0e38184e3818be38080e3828de3819be38293e38080e38284e381a1e38293e38080e3819de381a4e38186e38080e3828ce38184e3818e");
  ("808080808080808080808080808080808080808080808080", "e3819de381a8e381a5e38289e38080e38182e381bee381a9e38080e3818ae3818ae38186e38080e38182e38193e3818ce3828ce3828be38080e38184e3818fe381b6e38293e38080e38191e38184e38191e38293e38080e38182e3819fe38188e3828be38080e38184e38288e3818fe38080e3819de381a8e381a5e38289e38080e38182e381bee381a9e38080e3818ae3818ae38186e38080e38182e38193e3818ce3828ce3828be38080e38184e3818fe381b6e38293e38080e38191e38184e38191e38293e38080e38182e3819fe38188e3828be38080e38184e38288e3818fe38080e3819de381a8e381a5e38289e38080e38184e3818de381aae3828a");
  ("ffffffffffffffffffffffffffffffffffffffffffffffff", "e3828fe3828ce3828be38080e3828fe3828ce3828be38080e3828fe3828ce3828be38080e3828fe3828ce3828be38080e3828fe3828ce3828be38080e3828fe3828ce3828be38080e3828fe3828ce3828be38080e3828fe3828ce3828be38080e3828fe3828ce3828be38080e3828fe3828ce3828be38080e3828fe3828ce3828be38080e3828fe3828ce3828be38080e3828fe3828ce3828be38080e3828fe3828ce3828be38080e3828fe3828ce3828be38080e3828fe3828ce3828be38080e3828fe3828ce3828be38080e3828ae38293e38194");
  ("0000000000000000000000000000000000000000000000000000000000000000", "e38182e38184e38193e3818fe38197e38293e38080e38182e38184e38193e3818fe38197e38293e38080e38182e38184e38193e3818fe38197e38293e38080e38182e38184e38193e3818fe38197e38293e38080e38182e38184e38193e3818fe38197e38293e38080e38182e38184e38193e3818fe38197e38293e38080e38182e38184e38193e3818fe38197e38293e38080e38182e38184e38193e3818fe38197e38293e38080e38182e38184e38193e3818fe38197e38293e38080e38182e38184e38193e3818fe38197e38293e38080e38182e38184e38193e3818fe38197e38293e38080e38182e38184e38193e3818fe38197e38293e38080e38182e38184e38193e3818fe38197e38293e38080e38182e38184e38193e3818fe38197e38293e38080e38182e38184e38193e3818fe38197e38293e38080e38182e38184e38193e3818fe38197e38293e38080e38182e38184e38193e3818fe38197e38293e38080e38182e38184e38193e3818fe38197e38293e38080e38182e38184e38193e3818fe38197e38293e38080e38182e38184e38193e3818fe38197e38293e38080e38182e38184e38193e3818fe38197e38293e38080e38182e38184e38193e3818fe38197e38293e38080e38182e38184e38193e3818fe38197e38293e38080e38184e381a3e381a6e38184");
  ("7f7f7f7f7f7f7f7f7f7f7f7f7f7f7f7f7f7f7f7f7f7f7f7f7f7f7f7f7f7f7f7f", "e3819de381a4e38186e38080e3828ce3818de381a0e38184e38080e381bbe38293e38284e3818fe38080e3828fe3818be38199e38080e3828ae3818fe381a4e38080e381b0e38184e3818be38080e3828de3819be38293e38080e38284e381a1e38293e38080e3819de381a4e38186e38080e3828ce3818de381a0e38184e38080e381bbe38293e38284e3818fe38080e3828fe3818be38199e38080e3828ae3818fe381a4e38080e381b0e38184e3818be38080e3828de3819be38293e38080e38284e381a1e38293e38080e3819de381a4e38186e38080e3828ce3818de381a0e38184e38080e381bbe38293e38284e3818fe38080e3828fe3818be38199e38080e3828ae3818fe381a4e38080e381b0e38184e3818be38080e3828de3819be38293e38080e381bee38293e3818de381a4");
  ("8080808080808080808080808080808080808080808080808080808080808080", "e3819de381a8e381a5e38289e38080e38182e381bee381a9e38080e3818ae3818ae38186e38080e38182e38193e3818ce3828ce3828be38080e38184e3818fe381b6e38293e38080e38191e38184e38191e38293e38080e38182e3819fe38188e3828be38080e38184e38288e3818fe38080e3819de381a8e381a5e38289e38080e38182e381bee381a9e38080e3818ae3818ae38186e38080e38182e38193e3818ce3828ce3828be38080e38184e3818fe381b6e38293e38080e38191e38184e38191e38293e38080e38182e3819fe38188e3828be38080e38184e38288e3818fe38080e3819de381a8e381a5e38289e38080e38182e381bee381a9e38080e3818ae3818ae38186e38080e38182e38193e3818ce3828ce3828be38080e38184e3818fe381b6e38293e38080e38191e38184e38191e38293e38080e38182e3819fe38188e3828be38080e38186e38281e3828b");
  ("ffffffffffffffffffffffffffffffffffffffffffffffffffffffffffffffff", "e3828fe3828ce3828be38080e3828fe3828ce3828be38080e3828fe3828ce3828be38080e3828fe3828ce3828be38080e3828fe3828ce3828be38080e3828fe3828ce3828be38080e3828fe3828ce3828be38080e3828fe3828ce3828be38080e3828fe3828ce3828be38080e3828fe3828ce3828be38080e3828fe3828ce3828be38080e3828fe3828ce3828be38080e3828fe3828ce3828be38080e3828fe3828ce3828be38080e3828fe3828ce3828be38080e3828fe3828ce3828be38080e3828fe3828ce3828be38080e3828fe3828ce3828be38080e3828fe3828ce3828be38080e3828fe3828ce3828be38080e3828fe3828ce3828be38080e3828fe3828ce3828be38080e3828fe3828ce3828be38080e38289e38184e38186");
  ("77c2b00716cec7213839159e404db50d", "e3819be381bee38184e38080e38186e381a1e3818ce3828fe38080e38182e3819ae3818de38080e3818be3828de38186e38080e38281e3819ae38289e38197e38184e38080e381a0e38293e381a1e38080e381bee38199e3818fe38080e3818ae38195e38281e3828be38080e381a6e38184e381bce38186e38080e38182e3819fe3828be38080e38199e38182e381aae38080e38188e38197e38283e3818f");
  ("b63a9c59a6e641f288ebc103017f1da9f8290b3da6bdef7b", "e381ace38199e38280e38080e381b5e381a3e3818be381a4e38080e38186e381a9e38293e38080e38193e38186e3828ae381a4e38080e38197e381a4e38198e38080e3828ae38287e38186e3828ae38080e3818ae3819fe3818ce38184e38080e3819be38282e3819fe3828ce38080e38182e381a4e38281e3828be38080e38184e381a1e3828ae38285e38186e38080e381afe38293e38197e38283e38080e38194e381bee38199e3828ae38080e3819de38293e38191e38184e38080e3819fe38184e381a1e38287e38186e38080e38289e38197e38293e381b0e38293e38080e381b6e38293e3819be3818de38080e38284e38199e381bfe38080e381bbe38184e3818f");
  ("3e141609b97933b66a060dcddc71fad1d91677db872031e85f4c015c5e7e8982", "e3818fe381aee38186e38080e381a6e381ace38190e38184e38080e3819de38293e3818be38184e38080e38199e3828de381a3e381a8e38080e381a1e3818de38285e38186e38080e381bbe38182e38293e38080e381a8e38195e3818be38080e381afe3818fe38197e38285e38080e381b2e381b3e3818fe38080e381bfe38188e3828be38080e3819de38196e38184e38080e381a6e38293e38199e38186e38080e3819fe38293e381b4e38293e38080e3818fe38197e38287e38186e38080e38199e38184e38288e38186e381b3e38080e381bfe38191e38293e38080e3818de38195e38289e3818ee38080e38192e38196e38293e38080e381b5e3818fe38196e381a4e38080e38182e381a4e3818be38186e38080e381afe38284e38184e38080e3818fe3828de38186e38080e3818ae38284e38286e381b3e38080e38193e38199e38186");
  ("0460ef47585604c5660618db2e6a7e7f", "e38182e381bfe38282e381aee38080e38184e3818de3818ae38184e38080e381b5e38184e38186e381a1e38080e381abe38192e3828be38080e38196e38293e38197e38287e38080e38198e3818be38293e38080e381a4e38184e3818be38080e381afe3819fe38293e38080e381bbe38182e38293e38080e38199e38293e381bde38186e38080e381a6e381a1e3818ce38184e38080e3828fe3818be38281");
  ("72f60ebac5dd8add8d2a25a797102c3ce21bc029c200076f", "e38199e3828de381a3e381a8e38080e381abe3818fe38197e381bfe38080e381aae38284e38280e38080e3819fe381a8e38188e3828be38080e381b8e38184e38193e38186e38080e38199e3818fe38186e38080e3818de381aae38184e38080e38191e381a3e381a6e38184e38080e381a8e3818fe381b9e381a4e38080e381ade381a3e38197e38293e38080e38184e3819fe381bfe38080e3819be38293e3819be38184e38080e3818ae3818fe3828ae3818ce381aae38080e381bee3818be38184e38080e381a8e3818fe38184e38080e38191e38182e381aae38080e38184e3818de3818ae38184e38080e3819de3819de38190");
  ("2c85efc7f24ee4573d2b81a6ec66cee209b2dcbd09d8eddc51e0215b0b68e416", "e3818be381bbe38194e38080e3818de38186e38184e38080e38286e3819fe3818be38080e381bfe38199e38188e3828be38080e38282e38289e38186e38080e3818ce381a3e38193e38186e38080e38288e3819de38186e38080e3819ae381a3e381a8e38080e381a8e3818de381a9e3818de38080e38197e3819fe38186e38191e38080e381abe38293e3818be38080e381afe381a3e38193e38186e38080e381a4e381bfe3818de38080e38199e38186e38198e381a4e38080e38288e38191e38184e38080e3818fe38192e38293e38080e38282e3818fe381a6e3818de38080e381bee3828fe3828ae38080e3819be38281e3828be38080e38192e38196e38184e38080e381abe38192e3828be38080e381abe38293e3819fe38184e38080e3819fe38293e3819de3818fe38080e381bbe3819de3818f");
  ("eaebabb2383351fd31d703840b32e9e2", "e38281e38184e38188e38293e38080e38195e381aee38186e38080e38281e381a0e381a4e38080e38199e381a6e3828be38080e3818de381ace38194e38197e38080e3828de38293e381b1e38080e381afe38293e38193e38080e381bee38191e3828be38080e3819fe38184e3818ae38186e38080e38195e3818be38184e38197e38080e381ade38293e38184e3828ae38080e381afe381b6e38289e38197");
  ("7ac45cfe7722ee6c7ba84fbc2d5bd61b45cb2fe5eb65aa78", "e3819be38293e381b1e38184e38080e3818ae38197e38188e3828be38080e38190e38293e3818be38293e38080e38282e38289e38186e38080e3818de38182e38184e38080e3818de381bce38186e38080e38284e3818ae38284e38080e38184e3819be38188e381b3e38080e381aee38184e3819ae38080e38198e38285e38197e38293e38080e38288e38286e38186e38080e3818de381bfe381a4e38080e38195e381a8e38184e38282e38080e381a1e38293e38282e3818fe38080e381a1e3828fe3828fe38080e38197e38293e3819be38184e38198e38080e381a8e38281e3828be38080e381afe381a1e381bfe381a4");
  ("4fa1a8bc3e6d80ee1316050e862c1812031493212b7ec3f3bb1b08f168cabeef", "e38193e38193e3828de38080e38184e381a9e38186e38080e3818de38182e381a4e38080e3819de38186e3818ce38293e3818de38287e38186e38080e381b8e38184e38182e38293e38080e3819be381a4e3828ae381a4e38080e38194e38186e3819be38184e38080e381afe38184e381a1e38080e38184e381b3e3818de38080e3818de38193e3818fe38080e38182e38293e38184e38080e3818ae381a1e381a4e3818fe38080e3818de38193e38188e3828be38080e38191e38293e381a8e38186e38080e3819fe38184e38193e38080e38199e38199e38281e3828be38080e381afe381a3e38191e38293e38080e381a6e38184e381a9e38080e381afe38293e3818ae38293e38080e38184e38293e38195e381a4e38080e38186e381aae3818ee38080e38197e381ade381bee38080e3828ce38184e381bce38186e38080e381bfe381a4e3818be3828b");
  ("18ab19a9f54a9274f03e5209a2ac8a91", "e38186e3828ae3818de3828ce38080e38195e38184e3819be38184e38080e38198e38286e38186e38080e38280e3828de38293e38080e381a8e381a9e38191e3828be38080e38190e38186e3819fe38289e38080e381afe38184e3828ce381a4e38080e381b2e38191e381a4e38080e38184e3819ae3828ce38080e38186e381a1e38182e3828fe3819be38080e3818ae38195e38281e3828be38080e3818ae3819fe3818f");
  ("18a2e1d81b8ecfb2a333adcb0c17a5b9eb76cc5d05db91a4", "e38186e3828ae3818de3828ce38080e38186e381ade3828be38080e3819be381a3e38195e3819fe3818fe381bee38080e3818de38282e381a1e38080e38281e38293e3818de38287e38080e381b8e38184e3819fe3818fe38080e3819fe381bee38194e38080e3819ce381a3e3818fe38080e381b3e38198e38285e381a4e3818be38293e38080e38195e38293e3819de38080e38280e3819be3828be38080e3819be38184e38198e38080e381ade3818fe3819fe38184e38080e38197e381afe38289e38184e38080e3819be3818ae38186e38080e381ade38293e381a9e38080e3819fe38293e381bee381a4e38080e3818ce38184e38191e38293");
  ("15da872c95a13dd738fbf50e427583ad61f18fd99f628c417a61cf8343c90419", "e38186e381a1e38285e38186e38080e381b5e3819de3818fe38080e381b2e38197e38287e38080e3818ce381a1e38287e38186e38080e38186e38191e38282e381a4e38080e38281e38184e3819de38186e38080e381bfe3818be38293e38080e3819de38196e38184e38080e38184e381b0e3828be38080e38186e38191e381a8e3828be38080e38195e38293e381bee38080e38195e38193e381a4e38080e3818ae38186e38195e381bee38080e381b1e38293e381a4e38080e38197e381b2e38287e38186e38080e38281e38197e3819fe38080e3819fe381afe381a4e38080e38184e381a1e381b6e38080e381a4e38186e38198e38287e38186e38080e381a6e38195e3818ee38287e38186e38080e3818de381a4e381ade38080e381bfe38199e38188e3828be38080e38184e3828ae38190e381a1e38080e3818be38281e3828ce3818ae38293")
]%string.

(** The checks run when this file is compiled; only their outcome is stored. *)
Definition run_en : bool := Eval vm_compute in forallb (check English) vectors_en.
Example vectors_en_ok : run_en = true.
Proof. reflexivity. Qed.
Definition run_jp : bool := Eval vm_compute in forallb (check Japanese) vectors_jp.
Example vectors_jp_ok : run_jp = true.
Proof. reflexivity. Qed.

(** The published SHA-256 sums of the word lists (language/mod.rs:349-358). *)
Definition words_sum (L : Language) : list byte := sha256 (flat_map (fun w => utf8 w ++ [x0a]) (lang_words L)).

Definition sum_ChineseSimplified : bool := Eval vm_compute in bytes_eqb (words_sum ChineseSimplified) (unhex "5c5942792bd8340cb8b27cd592f1015edf56a8c5b26276ee18a482428e7c5726").
Example sum_ChineseSimplified_ok : sum_ChineseSimplified = true.
Proof. reflexivity. Qed.
Definition sum_ChineseTraditional : bool := Eval vm_compute in bytes_eqb (words_sum ChineseTraditional) (unhex "417b26b3d8500a4ae3d59717d7011952db6fc2fb84b807f3f94ac734e89c1b5f").
Example sum_ChineseTraditional_ok : sum_ChineseTraditional = true.
Proof. reflexivity. Qed.
Definition sum_Czech : bool := Eval vm_compute in bytes_eqb (words_sum Czech) (unhex "7e80e161c3e93d9554c2efb78d4e3cebf8fc727e9c52e03b83b94406bdcc95fc").
Example sum_Czech_ok : sum_Czech = true.
Proof. reflexivity. Qed.
Definition sum_English : bool := Eval vm_compute in bytes_eqb (words_sum English) (unhex "2f5eed53a4727b4bf8880d8f3f199efc90e58503646d9ff8eff3a2ed3b24dbda").
Example sum_English_ok : sum_English = true.
Proof. reflexivity. Qed.
Definition sum_French : bool := Eval vm_compute in bytes_eqb (words_sum French) (unhex "ebc3959ab7801a1df6bac4fa7d970652f1df76b683cd2f4003c941c63d517e59").
Example sum_French_ok : sum_French = true.
Proof. reflexivity. Qed.
Definition sum_Italian : bool := Eval vm_compute in bytes_eqb (words_sum Italian) (unhex "d392c49fdb700a24cd1fceb237c1f65dcc128f6b34a8aacb58b59384b5c648c2").
Example sum_Italian_ok : sum_Italian = true.
Proof. reflexivity. Qed.
Definition sum_Japanese : bool := Eval vm_compute in bytes_eqb (words_sum Japanese) (unhex "2eed0aef492291e061633d7ad8117f1a2b03eb80a29d0e4e3117ac2528d05ffd").
Example sum_Japanese_ok : sum_Japanese = true.
Proof. reflexivity. Qed.
Definition sum_Korean : bool := Eval vm_compute in bytes_eqb (words_sum Korean) (unhex "9e95f86c167de88f450f0aaf89e87f6624a57f973c67b516e338e8e8b8897f60").
Example sum_Korean_ok : sum_Korean = true.
Proof. reflexivity. Qed.
Definition sum_Portuguese : bool := Eval vm_compute in bytes_eqb (words_sum Portuguese) (unhex "2685e9c194c82ae67e10ba59d9ea5345a23dc093e92276fc5361f6667d79cd3f").
Example sum_Portuguese_ok : sum_Portuguese = true.
Proof. reflexivity. Qed.
Definition sum_Spanish : bool := Eval vm_compute in bytes_eqb (words_sum Spanish) (unhex "46846a5a0139d1e3cb77293e521c2865f7bcdb82c44e8d0a06a2cd0ecba48c0b").
Example sum_Spanish_ok : sum_Spanish = true.
Proof. reflexivity. Qed.

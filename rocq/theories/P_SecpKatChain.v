(** Signed binary expansions of two nonces on secp256k1, with the slopes of the doublings and additions they take.
    The slopes are checked in P_SecpKat.v, not trusted. *)

From Coq Require Import ZArith List.
Import ListNotations.
Open Scope Z_scope.

Definition chain_det : list (Z * Z * Z) := [
  (0, 0xcb35b28428101a303eb9d1235992ac63f58857c2f631ee6936d3aebbeddcd1b1, 0x0);
  (0, 0x6ad2cb95963c033328d4857d4f8711deff557dd9faaa673b400442833f0efb64, 0x0);
  (1, 0x9693023fb325cc6c7bc993eb684358ea623d5feea8ff351df662beabd0efdc6d, 0x507c91e1644f2fa97a18a2d25744361310455a8629b1d15c1a03c1dcd202f6b7);
  (0, 0x22b7fbf9aef689d027abc38cac8261703ed53d39b6c0dc9fbb2f099c687c6518, 0x0);
  (0, 0x9cb40c99952c5623ae28a021f83de9b6d71740a42a407ba075d798f643d692fd, 0x0);
  (0, 0x75472fa91e2ca7b8627e1c4d7848616586e933b569570d8f367d887ede65b52e, 0x0);
  (0, 0x8ff4141755ab377e95f3ccfa89f3325d8f5585bb93f3cd70f87f55d5ef698e16, 0x0);
  (-1, 0x823dc932fb700f01ad56a85d11a5936ad2fb4836b954bcc4480f973b53d45451, 0x3179bc054ad80d4b52fe71e41181d12347b74d9c27412af0ba6ac73bc0d7e56e);
  (0, 0xff8eee4da529a3fda611825d338999fe92b4cb4490ecd686a87b6f48274c852f, 0x0);
  (0, 0xc528b3fb9186c2b3bb769f488a523fb923cc83df466ef732ccac1905bb92ae61, 0x0);
  (0, 0x90e145e17614738b2a4aa4b1a5a9645ba87d1e11e1b631dd6185670c342a2a5, 0x0);
  (1, 0x5f5379ed5befa3d26297eeb4f5f12f595fae9cf74088d7cde5dfbaaeaa421683, 0x4fc0334489a8a528cfb1e9c20bb1564296d75522c809ed79065f834acbd39521);
  (0, 0x15282eab4fd4d232cb8f8b4402c9fe1e9e5b1d018144d80a3b5bc60fb29a3e14, 0x0);
  (1, 0x11bff8fc6b110c1f4a2ced6133c16a161dc8ffbb9a7f0dcd833af6cf5eff829f, 0xd8abdb2d6ece1dbfac4c659b2142d14e3f01cf30cc68d966db507642da2d0f4d);
  (0, 0x9912a9cd80ae41d415725408b87b76114efcd902f13d505de68222649ec6c785, 0x0);
  (0, 0xaeb2e002076011766d3a4dcf0903b456fb1dc46826f5952545c5eb317d54c54b, 0x0);
  (0, 0xccdf802cc312dd203a4f9a97b429725379672e91c01bbe39bb0daf57cc1e36ea, 0x0);
  (1, 0xff2fd8bbc75b32b8b680999425ac57b8e15f7107f67749d71700cc1b096de197, 0x5cba3dfaf213fba4a37ad96844f9e51c3db10f09ec3e9fcb245b7faf8f986e64);
  (0, 0xceae5bcf8392543e6facac471d4b4937cee6f5b022b1b8ff5dc3671fde0ffe98, 0x0);
  (1, 0xf5d18d6137d49c7bc788d540e2b52afcf638920d8392d9e945588ecfce2212b9, 0xbb307204676c87254565b380f95a0b6a3c77477fa0367968a881a5db481d5354);
  (0, 0x57c78b7a2020c28543e4fff28223099ecb882217bdb9c8b5a9a5fce9463b7831, 0x0);
  (0, 0xcf99a4b2c96202c515b7bfd327cac5dfe8d96410b5c8f8a73a244e4c9b487e90, 0x0);
  (0, 0xa2605b0919965b0f8bf2fd7a47a68d22a823b4084d16afbbe55d77dcafe1ea30, 0x0);
  (-1, 0x2f9917ff1ad6a6e5f0a9bcb6c82a93dd744a82340d1f4edd0c7fcae27f30829a, 0xa87e7773f88b079c085df17793447eca7ca4a4bd10895739f4c1e8bd409ce2bf);
  (0, 0x8306a481ea6fbf7f76f93e839c91ecb58c6f25bfe618c846bc0d00e5bd84e11f, 0x0);
  (0, 0x9da39837c53227411dff84fb141486e60b89ea71968ff864903356ab269685ac, 0x0);
  (-1, 0xa8ad694bd1f0112d496b80b0a13fd17b80d9f5b54061a2b82626e46a40a35516, 0x3e1976eba428c1fde0c46a5581d2c83a458371bcac8642923ce57bd7924019f4);
  (0, 0xc7f796c503848d39220130daa62ac1f33eabbf5759440836ffa540f404d103d1, 0x0);
  (-1, 0x88def7ed5bca214a8eb3f89a172009a07f274a93ab368231caec45b613d1ae2f, 0x85ab87a0edef8f6f0938b74270dd02374e2cbfa125d7f4271781ca087a006db7);
  (0, 0xe9a0a752c7de99bd688022571b0ff1846ae3cd39620b179bd9d0338d1a2c17dd, 0x0);
  (0, 0x698a1eedb45f6a62c92c497ba14af881d3382dd682d42c26efcba79d0768d364, 0x0);
  (0, 0xea18c40cf9e3062d4845c2cbdf13498006fa89bc1b8c9ab718f9f6feb024e354, 0x0);
  (0, 0xec84acff1259489130ef7d7098af6dd718f5d59fa66f87be79007f4e28fc01ae, 0x0);
  (1, 0xc80d221b31e48858e54c77791265527c4ac69466c4579963b6619450cb32dbfc, 0xaeb935481c62ebc3a77afac1bcead3039df756c5e0907cd54a0b4fb381092d93);
  (0, 0xf7e930dd514ea735a49ed44e26877db9dbf3dc9c2e069fb72f13759d41409186, 0x0);
  (-1, 0xd0d93db8386e1790a0d05e365d660b01bbf3d570f394474a36f365977b61aca5, 0xaf19c33f907d693f68bb4f65877eb5d4fe126ba4d26896fd3827038c8add67f3);
  (0, 0x14bbbd4bde4d393b71f404742c07254ff6d09a5f5236814927e29692d44b369f, 0x0);
  (1, 0xc0d484d0a29ee418fe1613a43cedeb82a77dfe15fd0dc408c925524cc02287d2, 0xac9e7584855f7f66f659d93a019c9a9e5000fc50e5154264cecee4aea442c6fa);
  (0, 0xb8b0dfc2af47897521747f70f1aeb3207fa11ef4d309fb9cf9610dbab3cc742e, 0x0);
  (0, 0xcc587d14520014c60a1947f0f9dd54cebc39f869c350379306de3417887ecd9, 0x0);
  (0, 0x26133181a238b0ce7280fc994dccff246ecf9438d2cbf98ab5a4eab87a87ba8d, 0x0);
  (0, 0xf064ac1de8f3ded3aca8bce58bd551123905bc50c79a2c4393e6831179d122fb, 0x0);
  (-1, 0x20763806150d6bb4a784518e8d7b6bdca1031969d66a784593b97d37e62ffee8, 0xf7e264a406606040f81e1bbd511c0a17a2d9283619c15c1f3c3fb644648e6a17);
  (0, 0xaa320874120d61de7df55049a889215a287df84ea7e4dc2ed7c975581243ae44, 0x0);
  (1, 0xaa4b5f3b761abedc16b8df5934c2da40944c6b3e4539ac83a8d47db9501bb7a, 0x3fe22908510e0488d829fcf72b55d67182b7b9e9bd2f73dc733fed6af795220e);
  (0, 0xf2be2e8a2dea664ce7ab67453d16c4772e6ced6ffd2d3a38375930286ad9f621, 0x0);
  (0, 0x8ca07f7dda4ce44488bf41f8c448934cb0abaf30ba8f253f242ac18246ce6206, 0x0);
  (0, 0x97c9d2f8dd2020015f3570c569fbe6f5ed9ef6f3e9ff91bd1f5156a25610a885, 0x0);
  (0, 0x67136c9f7789a8a0875fbd4a0f6ab31a6e13509d29d12386e467e0cff56ac11b, 0x0);
  (0, 0x5bf0b07036c6ddc1bd6669c463c00e2537b13f358b0fe3d9bb419cfa3135e51e, 0x0);
  (1, 0xee5886e328d00b4b7179c4590d297155a5d2c03edf231ca7db010fb9dec2e74d, 0xcb47f81abb9ee16082739f8710002d4cc752c78043a5c68f2d8aba23681186c2);
  (0, 0xa97d24ec82499615907225cfb63f491ad4c142a5fd8026c87bdf559a350ccf93, 0x0);
  (1, 0xd6ad4969a79a3ff918b3c9410904ce37a05acc8168c806b99cc490fa0ac5557b, 0x851aef590f5df0006045c63e1a1afbc999c6821f0dd9d87249742334dbaa22b9);
  (0, 0xd192eecc4068ce7af822cf139f21970eabcdec9934980de5f4c07c4216438a11, 0x0);
  (0, 0x2f4eac01e4d00664297c63edf46f308f0d33e2a95b745ad17a1d8e6e8667bde2, 0x0);
  (1, 0xf6250ac94f9a6803b6f494860eef13fd61fdff465138ae9ffd6b49f4f6848746, 0x4d8fa71a95aecbd85798c3bdc69716b6e1e740192917bc229f6f4c020af9053b);
  (0, 0x9821c271ec7c8897f041e5a07fb1b94abe3b273ba1b2b9e014c6269dfb6d3ba2, 0x0);
  (1, 0x73bb7c625848c0367d8f8c2fbd66ea3eb22d7ff80845c89055463b1fbf44b4b9, 0x393cf98961aebc0fcb2dcfa0349034925009b230117edbc0181ca7b9d9198351);
  (0, 0x59f4a938bf45682682757ff30d81491680708a5aa25760ee2ff63ae5569f6823, 0x0);
  (-1, 0x8e068a016991f4fed2c13294f7d064016e5b3b639a13c76fa6bfe412c12106b0, 0xbd7973d8d97e30d5a4f8c0ef3393a3ef86a46205a367faaf6ede28c98a4217ef);
  (0, 0xac8896138eb8a2afab18c39087879833cbca6a69a29f6e6ef8e96d1a69180fa9, 0x0);
  (-1, 0x4ea5a9364df148c7d799060894ffa98db4251f045f49dac96055b70f6deaa7a0, 0xdce5a2639713a0237158be84bb674fa721836c905cd776113e319772a174968c);
  (0, 0x614448097c031df9225dd9b2ae6d1d20b42a17749d88f6a3dd3093517d25f132, 0x0);
  (1, 0xa9b418c1f1cfa952478165dc2f0ae48f83a5cd57e848145069870a419f89e419, 0x4db653358e7c35d3e4fc2f72f6ca8b98aa58f7dfcd73719f7e477960af62faae);
  (0, 0x421fe1f95b0018dc3095eebeca5a30b15d16ce17f8f6eabb127e21feaa71569b, 0x0);
  (-1, 0x9aadb4e8c3e2ac0c67173a571ee5d906ddb5a7236e9afd25ca51eabbeed4bf9d, 0x7374d1674c5809607dbad27aff62a1f01809fc1252f2360e3e690ad747eeef47);
  (0, 0x3d4c9b1d0c14c7bda529b14ea5c08811c35511f28c1469c0795c20a4ee9992, 0x0);
  (-1, 0xb70c2a348d385884ef0fc6bb3762a41208b38ce552613a748ede9ff3c583e2a6, 0xdfabd21385d37d392f586d8047283232b49c8c8eb4409e987dce554fa5dd1847);
  (0, 0x3b6d9acce673306485d99f194bf8f8ff3f280d2c4a0b7cac2add156092720399, 0x0);
  (0, 0x2a33dd5a97cd80febef904cdbb954a2cdd18a815dd89fb8b00f609e71ddb8a41, 0x0);
  (-1, 0xb3479f7fdf3565849882e69feb2ef97f822d4f0732a55b9c488955c3befb4310, 0x7f098148963462eb3e3d7117dece8898501b9cc482a9f94aebfd3e1211fca7d9);
  (0, 0x9a0506cf88f9e65eb0a705add5176b95c527e829370b20038074af98ba133726, 0x0);
  (-1, 0x8f2b4558c02f9a97147740a52f87caae81df124ab18a14ae692e142824b8691a, 0x6d1a54de713c6a62ab17fd9108dabd9357e187ac57ae23e0302b87965584e727);
  (0, 0xef5645f4758c6688b67f6858d3cc36b07c00e46d6053fcdf9b13610679e0030c, 0x0);
  (-1, 0x10aa0e7c66d4d35124bee88198bfa026ee098b47a5336c3398bf4bfb05f3f9bd, 0xdb13fb2651454e556be9bad275132abfa718963c7aab33bb20d660942956bd15);
  (0, 0x9e2d15547ae4ded97964d40ddd7460e6a78446554c5a9719ff7bc9b4fdb3cd2, 0x0);
  (0, 0xb0d0f870708e53e93b0199011bddaf959043c098a79b334b9f0f86560c89d80e, 0x0);
  (1, 0x8e39353549effbcbe01efb3bbd8824840f5fe3a8d74f44ed38639b7151a6a736, 0x4d2a8166eba9c9dbccec4241cc959922a12c25d6b823e8071b7ccade26c0f0e0);
  (0, 0xe12db50f5d45754547fbeed414d1c86f151596d673a2301dab9c1647f399bf93, 0x0);
  (1, 0x3e9c44202ded3f57bd827d257548a51c57435af606c876569e63ba0b2d4014ae, 0xa7adca27068176a470eb732f26db014b86f392782cb86cb992ffd28afe35410a);
  (0, 0xaf21f1423a237c092a1b58062adeb9282898821a33463b94d14fd8d373d71790, 0x0);
  (0, 0x27c09c9f6551436169bcbdebf52dddd95fa246970a41a2508873fe258d45c6c3, 0x0);
  (0, 0xe1b32085476cecbac262463f518d6346007adc5021f1ea0a32555026d6610447, 0x0);
  (0, 0xab0e04b11b8e5ad5dcf14be91c238107751e38f6cbce15cdce57cad1a92f48f2, 0x0);
  (0, 0xd189cc7b7c48dec5039a46627417a7dacdfc88f1c36bc395cf2b18899614688b, 0x0);
  (0, 0x389d2a8515d9e3676bca5a5fd92e07bf06f03283b7e93de2ad19c91ba53cfe6e, 0x0);
  (0, 0xdce532eda1e9dfbb1acef5ccbc0ba26491e94dc91a7b72e603d725d83d962520, 0x0);
  (1, 0xffcb3e627b408f81aa410245b0481389eb0facc6e5c8c8a738970dcf6eb28bf2, 0x4b318776f9d62ba7976ba95fd9c5350aadc61db8fac9cd2b8d011d10196755fd);
  (0, 0x2b52f6ce4a08ebfe57be5bb77bb8212ca87ef25ddbf60e97bb9ee7b91f211c6b, 0x0);
  (-1, 0x79cb0c319d2f8f9d32b5270a2cbce954e7daa77abba5ed5bccabcfa0a3f55e2, 0xbc9f55b0e48ac7ac53ef60d0b90af0dd90fc6e57edd784f615414b0166698dc7);
  (0, 0xae80cd4ec89d88c584fbdeca23808504f8388191f3d378fe2fce6dc76a046411, 0x0);
  (0, 0xa86b66b6c7f2382c2bad7265ea11283f3eeb9322555bf49ba7c1c7079d064e2e, 0x0);
  (0, 0xc123ef84cec12ac43c5e51e30ba78e87c6165a1c0ac2c7de3ccdc20cae5951c5, 0x0);
  (1, 0xc3e1ad20f4aa220ba230b01831c13ce4d8d7bd6ecaaaebcb406b3128539aa476, 0x287fa9a632d01a82c8af177c6b485072582546aaa285f76afb5dfb19e5b4baa0);
  (0, 0x2dd26cc31060c5e59da84a5b98493d2daaf8f174691897816ddfd2a9734e1406, 0x0);
  (0, 0x2f8477fcd08b42a7b9823a79b5167f85e0441ab3d688ac1b5ca6079c02bb0e2, 0x0);
  (0, 0xdd956122bdb83bed6c1607caae839cca6ea478aff20d3ffadf08d964addb2ead, 0x0);
  (1, 0x4a2d64b03f48510bd04cabca51094f852e5cde79751375ba28e09e3139eb9faf, 0x763f8f483ed9ded9b14add93a659aad932e5d7f4bd50b296bb04bc5628a4b75e);
  (0, 0x325b72e34cc152b50cced30d89379e71c70859f11ea262af40e16a9b2476e839, 0x0);
  (0, 0x23f51bf7273cb54d84d3f32b306237839318c9f23730a58f4655ad34dd79c42e, 0x0);
  (0, 0xf795749a4a5c51ff3ec069204d5ae3919f7b5e38a91f746fc6b18655765dcb72, 0x0);
  (-1, 0xc6e0f424403b6c97d9fdd7dc75ea515883a771f38328421b174b8a3ccba2e520, 0xf9944f7c3a8138ae567edb6113d1aa070920f34336ab6d118c636785223e57f7);
  (0, 0xe1c770192988621519ecc15e5bf9edcf8f843625dfc9c933883167b05782baa4, 0x0);
  (0, 0x781577b1ce47aca791fbb54217371f7e587ee719edfb70fdef65dece5a6886b, 0x0);
  (1, 0x4ee268378845f94384908b7c529dc930efc37eb374581776d0c7ea5ec2ea20d5, 0xd731a177ce8bd97352f76c2431a8b3dd18099f4e6d05172a9b69264079ee5884);
  (0, 0x798db647c0a5450f28e69aa49c4aa824de1fae1c3675cb38b629102a90926aa2, 0x0);
  (0, 0x2c4bab37de990014c595f38f0f734cb34f76cc17c3e0e046ccea5829d71b8104, 0x0);
  (-1, 0x81de7271113fb61a8f1b3b99c56542acb0d8cd85496657be3c50ac0ac0ec8a8e, 0xff52ebcdaea942cc082b13f82c50cd64e7a79279604f88463edc8fb7f5bf7deb);
  (0, 0x93c1efb1219fd3bfa5f51522b48ce9c531f0401d578da55d39d1af90a039d9, 0x0);
  (-1, 0xeaa9cf50576d0c1c452ccf38a112400806508867319199df83ba7c1a546f7279, 0xd96253137c9923e4adbb2602dc4379a1e744fb519f544049d2c4c29e957af113);
  (0, 0xb923eead2f57072ae5112f123780571ec68cfac7850bf5fa296dc94bbfe39e28, 0x0);
  (-1, 0x55447ea51d68c62c4d4b0a388c9c54fee6b0615ca990989ef05c2729c23d773f, 0x5973bef7626f7ab5744703219f7439502a461600a9da6fd740e28adc339c2615);
  (0, 0xb61c66f2e654bba69800b9fd6806f8e3da0f74cc355354bc96ebcaa0a89f209a, 0x0);
  (0, 0x2889ae347f2930ae02da7b90790bbb5840047ff23bd49c6eca27f7eee4baa39, 0x0);
  (1, 0xdfb899b8d1ba0a86815857d8268383115cdfdf5526c17ea37517f5e55189b43a, 0xfb9abdc519ac8b5e0861f73eea5a9bd8b5670f1cecdc29f85b42999dc109d443);
  (0, 0xe01b8a9ccfe2eca80ef7dc301af754179a517b93bca5eb1ad60e788ef77343d3, 0x0);
  (-1, 0x196613221cbfae998122318476c27f68dd20f6cd77d20ce3c6d43749656be6ab, 0x3b18eeb2d135fbf5d149ae6c39be94594dd9cb904143912ebd3f294bf47e7c8);
  (0, 0x9b96eea572b7df46bb3da170460d3d7cecf0466cb0ff9a14bc93e7d1ccabc708, 0x0);
  (1, 0x6a31528afc8ddd4bd78a444e0eb0220170af7d5b967305e577ba7ce3bdb59c52, 0xb742e86160a0e9b678754d7a9e27ece3a635198c9a957475a8a4949c4167c9f8);
  (0, 0xab9606d504655b05f56f4f01f37300560fd85cd5e5144fea5a2b8ff0eec1026f, 0x0);
  (-1, 0xd9f6fa3ef96eba4eb0916ed51205036325ef32edce10d6a6238f3405a4eee8fb, 0xb4830f077d45eb61f63556d1460ee45f1186a7be7b5f966f2671d840dc1a233c);
  (0, 0xcb25197acd1515eb1af9fa8668ef3c9b5cf49a08be5360dfb5c8e4fe41fa369f, 0x0);
  (1, 0x3ac0a9a91aa1065e6a32431589210a998e0ebc13d1b4043224f219ab19fcd59, 0x8d4d48a53a70791811b1d5117617cea5c804fd7aeccc2e1111b51b167aa709d0);
  (0, 0xa62d399365d6369be06984a0832e24e78d1f74fd738a68990d83661fdddc020e, 0x0);
  (0, 0x6c68c09707450f3cbc9334e4447f280754b7e2e0bb6c7775bae7724e04a09f8a, 0x0);
  (-1, 0x3c029087d881304694a24a373a2da369d78e2ac68d2bd3b7f05323d06c1542de, 0xc744207c6d6276ade7c0b18b0e1ab0ee05b2356aceb0ef8a2cb08443e7393052);
  (0, 0x1ed26b8a46d603ccea83055692dd6050b26c7f206a3f188bb496bf31391e2c88, 0x0);
  (0, 0x46e12faf4134a84e55d6e30ff0faea3aea3693534d5526d2053fa7aecce7094, 0x0);
  (0, 0x847f21d73f20f961992dfcf1597ced14eed6685731136e62f812cf138cbb1df5, 0x0);
  (1, 0xbdeff913879adaf2d012ebcbcae94fe0b959ba12420afe4b692b2d704d6b5563, 0x9bd3ef4189f28a105e24e84bffcac8fe53abcc10f12f38f9842cbd154707f1bb);
  (0, 0xf599e8b9599a0bdc2b59bf22f22611d43c4104348df540166f2b00e0cd3e5ebd, 0x0);
  (0, 0x89d6d8faf9d52a270bafdaeedd6fc23385fe81f2b5445b1e120b182e9f37cee8, 0x0);
  (1, 0xdd68d97cd8be168469dbacb424266d3658ff71221b8cd6518e8434ebaa1416df, 0x6866428d115782c7049499ec904d3e0c563d131454da67b14871ecbe8032601e);
  (0, 0x9263bfa4e257a493effc313e9c886df6864e908c37d0cc2cf914ff22d1f5fecc, 0x0);
  (1, 0x7d29b9c0bcc4a22a7c189c8a5730e1f39e93eb8759e2635b05d2229ad947fd82, 0x499490221695e0d1dab061349a9b9a24f9c9b3727bf5933fc51ed05b2e6a5a8d);
  (0, 0x4baef2885a244fa3ad03e542680365d0f5ab535b745dff161a8831e8952e4c48, 0x0);
  (0, 0x9e1b3eb9b22f577767f81bb53b0db80ab36ef04c64e56025883c3031d0ad2262, 0x0);
  (0, 0xb7b02153bcfa10b5d20b28648fe5e208e6c7770d129e963612b422e97df7ae28, 0x0);
  (0, 0x76c31e05ff2fba3b5fe69f87b8a700b07d211772021af18109e867960e60d383, 0x0);
  (-1, 0x7149282bd75815f2c000ba43ec32c96209ffec004af69d27f2320c81e37c8f99, 0xef7034b28ae67d305f5ee95cd797cf3aa49f715c74b773444e89097e6648beba);
  (0, 0xe62d0f4b22e471cc0524866e27a7046fe27a4f4a9b2f1f6df6bfe196cb75f69c, 0x0);
  (-1, 0xc22c48114c91633ffc15328477f7d4a60b166046c13a5bfe797c7c1b6ed3952f, 0xf42d3cdaff8bd0072ad0723189c645cd6901f9df87d3ef5aedf157fc8e427330);
  (0, 0x651b1ce20991fc2c33a556745cc988fd074dd543f3541bd749a83635d32bf2a4, 0x0);
  (0, 0x167723082fcd94369c3639de39744cbf42fa0b3e6e84cf157f7a2c03daccd901, 0x0);
  (0, 0x999dff64578a04b1b0e3f672a83ffb4120ad208bf1c0de0cad3c16d6d3d40dbd, 0x0);
  (0, 0x9c8d9ec58d930f44e9996ba893e98739ff52478462219ebad844bd842927b1b, 0x0);
  (-1, 0x6b640d91dda97e82c55bc61f3521dfe51d430459081d31af574149b6366c8e59, 0x11e752474d17505751ddd5a91984c0c082e7616d1791be1457f7f59db681b38e);
  (0, 0xa4501e510b5e75df96d855e910e52e5838b4d1e39490ca5fa6f98e0308456a1, 0x0);
  (1, 0x1fafd5090b99559096ee7b67571799a44971c27b22781743c6f0ecc4b730f42c, 0xe4ba3b690e3ec925f7f974de039e8457429f2e6346b11287c5b432d273647608);
  (0, 0xaf08860f3b30149b9e80d15e2a7a1ceca9ac627374ed2ebd607b7e9fa36967ff, 0x0);
  (1, 0xcadd4d8bc661902fd260af9c6c21577c5632e95a7fe566d7d3f18279d968fec5, 0xa542a41a586cc10817dd6fbcf86d7e031dd8f908df5a8e212afc2df852cf26b7);
  (0, 0x1ca69e950d6b7ee0060f8621ff756da81c48ddefb0df212a4b98e1880463eeb5, 0x0);
  (0, 0x9e35a7eee7bc085df4e73d195d44a1fd41e3ccb3767aff1c81290db8a89a6307, 0x0);
  (1, 0x55f05facc730ea9ee9702c0b9576d310f1266022edf46bb4571abd101602a02d, 0xe814efa1acb3e69e5494027999a1e4237d8456c75dff19d93fb1b121c57f90f0);
  (0, 0xd05f01ec1a42d9f4b8b06c50a72f79636533e1fad0feed935edec9da3a2b8634, 0x0);
  (0, 0xb23b2689d19d53293adc333b3b0ae16226e9a0fb47cd73a0b355fdab17eda768, 0x0);
  (1, 0x95d5df00d56e457265b955a11bdb47bc45491006c88df61c04651e9f06eeb7a5, 0x3fd1938fcd647dbd351f38c0d20c73bb2317b74e156f67b5727e5044c527965);
  (0, 0x34e0bf4009c5583411bc92ff168c324652418b5f31ad1fb7e9292e7feff4b73f, 0x0);
  (1, 0xbdb5626b6a0d030f05c9d062646fcca396677868cf26750d6db8690b2c0fd11f, 0xb1b1304d07b6413742b0e095f05594d0c9138eb715da37b714d957c89a96e8d1);
  (0, 0x4e0cc2268b745745e04518e17fdbfc54eb55cf1268e1cc0d3f259557cc8cc425, 0x0);
  (1, 0xcf8bc399da8d575627191d574df4192ea967549369a2b0d364e792884e1804a8, 0xdee6e6796613f25f3ecdd24886e9af459046641fce9aae02045c64c0f1ef7932);
  (0, 0xffaff1fa4844a484a7d2bcde6efb3a66c4a640e6fba3595a18a8d1d589ac92f2, 0x0);
  (0, 0xe93b85f05c107858269ca556b396c004e8bcbbe3057b9eab84ffedee3d7ac16e, 0x0);
  (0, 0xf39a5b20a3e4f259dab0d1421ff02555d17cd71b0893731f4a82d5e848cf57, 0x0);
  (0, 0xf54d353b457c4da82e87ac80f6b501ece475de5389968e0dc1f628f36beb7778, 0x0);
  (1, 0x3616ef829a6bd1e7dc2a8dbba6e6750b7789b57e6c9cfa52ffba8f3465dddd01, 0xd5b706eb36602358cc18dfefbc8afcf6817ef55b4856c51bb0a220e16a470155);
  (0, 0xf7fb0f13658dbb8215ff8ecce23a973a04b43e7a93954f313c0c6f67ea0f5d6c, 0x0);
  (1, 0x4be01a89449453043c2e8554835b38b0aade12661f207aa9c50cc727687699cd, 0xf4d2de91792b6c5f8a5b3e8985df6098f2cae67f91e5c2b08a3ab3d4f292d8f6);
  (0, 0xba8173c57620439dc05ca12ea314ca66a1ff587fcec779525506b4cbe9679518, 0x0);
  (0, 0x4d24cf933f30ac5d9bdfffd9b6c54440fa24ac55988c6984d1e3adabb13bd076, 0x0);
  (0, 0xb4f5219ccff3bcdc0e1f753ce5bedb197681de2b1cfd8db85caed8ffcd1c94ed, 0x0);
  (-1, 0xae84f35d3ce8fab18029d1975bc330a7c55732ba8e6c40482be747565471137a, 0x79d1eefc2b89d99f6660df71889343d8233d6897230db4c90ea2b1ca8b67dfd6);
  (0, 0xf684b6c101d9d4a05a4268329138b8c4c590e30678fe592d4bfa436195ce5b28, 0x0);
  (0, 0x14d9a708ddfae56909155aab475de8d23de26ca28332f343482738152c5ab0c7, 0x0);
  (-1, 0xcad71919dedf7cf7e54c61b0cd0db719fa9ee58fb60b27219fdbf6e50f77a046, 0xa96debcbd839251fad4bc01d62d57f28ef6e64236fa8f9258cffc9fc13de8f4d);
  (0, 0x8211e057d5a5c89e245ebfc887ccfc8d7ed32ee304344997835f36af1f1d779c, 0x0);
  (0, 0x5a53c7d31e10cf44efd0ab70e0b8ddb08605466d40b523b06727b1f4c1069ca2, 0x0);
  (1, 0xc197b810512a80bea01db9a116bdd376e86f0fc8b1d5230ceb38bca27184f73e, 0x50c73f1a5146a19eb130c9fdb1882277fb73b685516139699c822beaba2b3d7f);
  (0, 0xb35100b94f19dd2c2b4d23e02e81531b3421f501e16121b7ac641e6514e44d7a, 0x0);
  (1, 0x27c68bad955713b88c477192e6041fedb28ad3d7d7d2e0440bbd360e182ae146, 0x24adcd19b9d1990f4645716c988e31a8907686327dfcb125738bfef9a2d447d9);
  (0, 0xa127703fea9364fe84ee80dda492e820f77d341bc417a5188e1bd208a27f4dc5, 0x0);
  (-1, 0x32abafbf50ac583b3de0e768c24d2e426d85d2cd27932a15e2ee822a9a5abd7b, 0x69a503968585716f5a8c17b66aec41658bf8bf520b26dfbe93aa4c8f482354ba);
  (0, 0x2333919d21025c81f896fed6eedb16cfe1e4dbf42a2dd4110b520bf4299812c6, 0x0);
  (1, 0xeb77d9098e1fb606b0cdf988382830f45c04b987eed8da150c8ba48c3e76d70c, 0xb61c99cfe06441f9512bfba1d644989840004d2f7964e46f9079e38cc748765b);
  (0, 0x9dc535698baf5add41a83ae40f459a9c5c07c3ecd5fc584460795ec38bd37bc4, 0x0);
  (0, 0xaa1ad98c2df3e57cf8010a680d1de2c1712f30223d51091881bb12bcd6b775c1, 0x0);
  (1, 0xe2faa8c0acbe8de49cc13a1915f6cdce3c495c4a5e0221d42f66029911d67c5, 0xd446b093f348ea0b3e6b8622c9de083c135e9e07c2a28870bb521e47e076aed7);
  (0, 0x68e85a06ff234534640f6e60ce9d3143f63e906dde35579f21a269effa97de17, 0x0);
  (0, 0x24a3493e3143337398cf4818c3e7e8ac25f2ebc9931e69189ad408cdf500167c, 0x0);
  (1, 0x589f38ffef80a1d6b5c64bb64c1cfed0fe7daedec58531e4ad0d7a930e0d2ad5, 0x400f0e1534d2e4fe30891a2280440f0269c0ca4e3e65a31c9d3de36e3818ed58);
  (0, 0x25cb9bd67e63d031c4c203ed3a9721f76f2dd0d299322e973b84a7f81b418cb5, 0x0);
  (0, 0x5be53b3b0ad362a2d6ad44687b06ffa018be20559a5a651dc102ad636fdc2c44, 0x0);
  (0, 0xc9a1cf0380c0bd80f290962a5b6e0830330976873b1ff3c17cfe063e74fcbf76, 0x0);
  (0, 0x56326ace6672ed7e325688a19853c9801c16a55323871ceb65066a187022147d, 0x0);
  (-1, 0x6bc887148faa163232ff2c9aa4c907b37905f95f3f2e07de52b1b225f5c3a8e4, 0x3469e1b91ad02fef29886de51d74247b5247ba51bf5ec0858ba861ff340d37a4);
  (0, 0x15e310092e1e50dcdcc258baed92f471e525b4da62aae7caea86ca004370f6b8, 0x0);
  (0, 0x654c420a153f97fa68147608092fdbc7305195f646c5de5521006dd56a47525e, 0x0);
  (-1, 0xacd23f25693fa23b00f751971863002b5c0a893ed42e27a6f564b601dcfd5711, 0xdf9d6f4e3370d484575ccef3e65c0fe72ccaa7e9f20acea6e6556d0de2a0a16a);
  (0, 0xf65ff69e87aaa0adbc27391d9176d8534f674cb34f35db5e05225aa5dbb52fe1, 0x0);
  (1, 0x69a9008d1cd32e51a28408cbd5408749b3cc3d2ed6005864f9d640679949394b, 0xf457393a41757c8c8938ea5fc081808ca46019b4160e1e53a024c38a18e1be37);
  (0, 0xe8eb3dddb30268e983e1c7503351435c9448e32cee02d8ae1694e31bfac6973e, 0x0);
  (-1, 0x5a04fe95d3201fbfcf0984d4949cf7cc87adfe4f346b2aefd8933b71b24cc5d, 0xd5fa60fcf427c6ba2f711e85f66e53aef7985d9e803ca32de55d9c0aaafeccdd);
  (0, 0x474e802797b0db27611b74de34ea9c50dd232fdbaf0f1933ee3321d85a18014e, 0x0);
  (1, 0x86c1239cc2c2e0bd803f5bb902f0c47badae69c6565f604cd59fc2c475d365b4, 0x977d173c626eb8bf30f2dfa6e2fc06fde6f1c2ad4bb7738f947c6790f8fce931);
  (0, 0xd3fb5b18a5615fdd281ea4f1c447fda32163b89e82701a40ada71599bc197250, 0x0);
  (0, 0x75d317800b9ee7eac75b83d0f11b3ab2d1d6f3c483384f8bd9de29e5dc18e40f, 0x0);
  (1, 0x63f5c9742773446b83110cf7e4257318e34a12b98b7b0d95678982ea0b9bc2e, 0x18ad2a6646575225aa6dca128a188ce6e8a2305d598741cfe4f4a14cd0f61eb1);
  (0, 0x9d465dd103481ad51d9a40d0bbb86012b996dcf4213aa9adf6101329b5172cca, 0x0);
  (0, 0x1b855a0c37f89a07553515d1fecf4dc8138497376c93d39624770ff4a41e2f8c, 0x0);
  (0, 0xf0781653150b5809b0e7ac88600478088d36da409427d17df3c4d9c7f423478c, 0x0);
  (0, 0x8ab423d562982de3be4826cbef61c4093e330df1c03f2135de33e8777b698837, 0x0);
  (1, 0x192472fe991d4b0c5c7a7b3f3b1be4bff7687444e1b0fc01892c65a6309eff98, 0x5d25c9e3113363234ad0226fad2c4b1b306e30a3c056a9a81f9d4c10dc87b95c);
  (0, 0xadbcec9b8cb3e3ad5682a6cd43903288d91a3596651e22b512e515ca46eb4789, 0x0);
  (-1, 0xbe1f5a9f7aa97ad79ac75934eecef8b8fd42e3cc195fa287b1823d6e2c6dc52d, 0x4ce5211790b82828c198af41283c19668afedf677beb40c1bd7d6493982a0cab);
  (0, 0x644746b8ed0a866541b00768fadc75b081a3ff6e7af155a17738b986dc19dc5a, 0x0);
  (0, 0x18b19f136140b9532d5b2b72d3c27ae7813bc5f41cf3a72bd8efebbf16a592ac, 0x0);
  (1, 0x4c778a9d26d921e165958e48ecd0440cfa67bf65751f7fcc0ba0fee2d94b2e90, 0xddc006272b66137526b1396a6328b9b2bad3763471a98dd3350ee2c689cb3a62);
  (0, 0x83c5a90d50ef51c4f1e2f513657bc7762d5dca19faae4043c422503f9b41a608, 0x0);
  (0, 0x9593596641a2c7bb05f2bf82ae642c7a41d3646519ee2676e94b2eaa9035186b, 0x0);
  (0, 0x37c631a1bf9b4dda7d2434a25f40ce621b2ab50efb5d010efbb432289622714c, 0x0);
  (-1, 0x3f060513aaef8fddea3f20ad6ed737837c493b0d6ec7064f57f4394848d2d7bc, 0x91ca0dbe657f942658fc75f4e17121c296349e258c6a7e72e7230a0cdd3ad1e2);
  (0, 0x929df2e203d657529b4c9228a1dbcd4dfa3088dcf1602791e78702869ead3e79, 0x0);
  (0, 0xea95bb28c838197fd3d5af32a9cd1a1ec6ab2321bbafe19229b9359373bfd9ca, 0x0);
  (-1, 0xf71062390ddcd71ae3c6e0844d2e13dd439e2cc37d883d31d2d34c7b7f72ef49, 0x2e0d041fe9ea1bfaab7af1bf71073492f91a2e2169704efc0e979a3c116df82d);
  (0, 0x2c2563e9419fe3f692208ed045ab5484c5173b67d3695dc2402cc42f00e4a70f, 0x0);
  (0, 0x8d6d2e0c24ed75e4f9b7c7eabd1ee591dc5f792eb4e7eefe9be63c5a6f58b084, 0x0);
  (-1, 0xd9be341730ab4ad6679cec8d674dfc5ded86795f4790f46dee6266e873c3f36b, 0x1bcef50120cf4151222d8b3f6bcb993fb06971201b6093dddf3d986bc5b652f0);
  (0, 0xd46619751670e6da5b835ebac9fc84355b5eb8691980454a064340a5bd7697d1, 0x0);
  (1, 0x7994ab1991afd42e76b4a2245a2e2dcd5c83e973c03c46d39265e0d7ed08d4fc, 0x65105f22178168617f0e69f7926b3be7abfd5b123fc6b2729f0c77289ff3f9d1);
  (0, 0xa831617f0486d216c690e78ba503e99674f45c60fba8a3ac177a7e907fb82be7, 0x0);
  (1, 0x28bac5882a4f1b6f702487feaa3fd83d4a072c72efc08edcc9653bcb395a3717, 0x202ae45b26ba57fff411c51f36e524745704267ac4841dcce3a4582303b2e0fa);
  (0, 0x3bfcb2c8e1fc2929049f0215561ba6d04dbda9d48f09122671daf323adc23a52, 0x0);
  (0, 0x4cd0252c64a97b33fa886e8704210d3d3be84dc8ad45b10a404b49eb0485505, 0x0);
  (0, 0xd7dc7a532c000cfc6a25df61ff254bdf63000e92f36998219f78350484166356, 0x0);
  (-1, 0xb7d1af7e1b0c7a46fa93f69da4f1fa203a1d985595bd7fcf67417076e24035c, 0xdac03ad84c6157694864d3471a0df6652f9fa2654776019472c22940772f1e39);
  (0, 0xa79247a2927616687f5732d996613ca4e9b8b364d6de71fe0bca2b3f20054d5d, 0x0);
  (0, 0xc4ae714d2899f225e29054580f7537178a313eebc2cf4ca37470f9ae482057a4, 0x0);
  (1, 0x6c864bd5bfe55a4c2208b7d6b40c93220b7682bd18b18959fe00f8b015ad6e7, 0xa744e4fa3f317704f93fd05f5a7aa7b57fae4a9c04d07b4811b49a057023ea58);
  (0, 0x8d1a76b786be703c907bdf34eec8dc450efdcc325b28658a555652990e256870, 0x0);
  (-1, 0x98493aba18765d097b664f1b12f83f3a64d78c3f58798216135ee725003a124f, 0xcd8f816d0bb1c11c27d9799422fd322fae97c950bd53ad7df02a74bba1b79ad8);
  (0, 0x3c0e77fc7f015dd44515001508b8f9fe034a66326c6d5a104dff7d18fb2fb45c, 0x0);
  (-1, 0x5494a5f2cafaf2889306735726263382a4caa939da67bc8cd6afc8cf1b654184, 0x8432e8b5397ff633f4d96ad030c48364f812b8e54665e637bd59aab98122cf1b);
  (0, 0xa07d6a16ab614c4aa790df8033cad90de18812ca91b75c8eb96a7e46228cbcdd, 0x0);
  (0, 0xd7d49bd4044a08b07e4fb8892e137300d72f418724955d81f742869fa687b778, 0x0);
  (-1, 0x8a3716a0b7154189a01825afd8e2391b5fe99e43a0f849e854f9868be5fb1038, 0xaece51797b5475f41dbff3096a4c74d7d5148752a51796478dbeda04a71d858c);
  (0, 0x64e8034f775eeef485c43f4361347c539b9ad7be396628dc2454262ebfa70307, 0x0);
  (1, 0xf960587d84032db1b8af275d516efd4e6318ec49cf3629bd2acacc2594e9a7aa, 0x8f95f31ba39663d2f1775afbafd014657f22c211502915a4722cceda4e064eca);
  (0, 0x13869fc4e338ccc0ea2cb49f0c71f61c7c36a8f42093144d54f7e21b880069ab, 0x0);
  (0, 0x668a4f3a176f2dff269b8118f9e4aa8d83a31b3ce9e49b25e9149c35d902d8b3, 0x0);
  (0, 0xbf36b7f0980486aab55ea975ae00ed4c43ff02176b57a5a86c954e290aa35136, 0x0);
  (1, 0x99b5d28537a7b11dd9ccf4e421cb26d05b5691a9eb8adf16e1a0e14a827dae3e, 0x1be32d14610b860294170d83373f32a15322d3fd540317fb22a7fc009eaa19eb);
  (0, 0x25be1939de9f375cb03dec8926b54775d8f792c5e7e5e88cc22a1b246ed34e0e, 0x0);
  (1, 0xbc37131ddaeeb0b089e09865ddcce76cddc1fcc8d4f272f454713caf8e9ab45, 0x745a480f4923b21fbcf83b6e57bb3f4a47db753175dc86358c39dc398cf436fd);
  (0, 0x65eef78109ddaf4bdbf4a46e2a0f728f890b7365a06555698770b386f2dc589, 0x0);
  (1, 0xcba887070f859aaed52eb337fe403b419703444d104d9434f5fdeead554c542d, 0x92c773da44d1622981c7343285c9fa996637e06044b0cadd485807fd9624d16d)].
Definition chain_hedged : list (Z * Z * Z) := [
  (0, 0xcb35b28428101a303eb9d1235992ac63f58857c2f631ee6936d3aebbeddcd1b1, 0x0);
  (-1, 0x6ad2cb95963c033328d4857d4f8711deff557dd9faaa673b400442833f0efb64, 0xfe189b679dc3640bca65db09557ee88478336cc1da0e974e5a177cadec9081f9);
  (0, 0xa69c17c116bc196cf7eeea54e921c6c8a847cd1fce7830438b85c5d11d8edaa9, 0x0);
  (0, 0x5eca0efe025d8536ea0175971e0fc6a45abcb4beeff302d0908be9f5094696a6, 0x0);
  (1, 0xfede08c986c73526f58f65274319ead6c60d01829b924f29eac4ee1459e45de0, 0x94b539f6b2df4de0a8a973ed1ec9da473f5c1ec7de926ef071d62679f708319f);
  (0, 0x59ce7b02fa67d062596d28ea4ae3078beff20c29030b20205abc1dd123d4ce91, 0x0);
  (1, 0x495eee6a07c51f1baf7b1de8f1ddafc67427ba419464fa5991cfcd2889c8b4c5, 0x345d346942900d3ba597b3f81182383267f2d8d3b7b0a5fb47571d5ae2076aef);
  (0, 0x79b6e6839554fa4a4f42cbffe9d318011b39adc75b05c85395d268d89ea523f8, 0x0);
  (-1, 0xfa211ba50e190e9aef912fee4b8978c9e1271b5db5f97ec839588feb4a9aa267, 0xb803c94495b4a4247b49c6d39847a8c6597a29436e640707a79ad85bc94beee8);
  (0, 0x13bfe25a8dce2c11106adf377ec631412b9c31df0f80ebec2bd73640b8eb560d, 0x0);
  (0, 0x9c4f9a3c2b1bd45ac9faf7dafed726b0c4ab751ff09be2c3bcf58c3eee7958a4, 0x0);
  (1, 0xd71d127a4c8f1cab964d68bd041fecbb01b7cce76b695cf1f07a6d375cea78d4, 0x2b937d02041df6974f6cd13c497375727fe23f5651f6f4cc0c3ba45b77006991);
  (0, 0xe5035ab7687fabdd778bd7f0d7c596de09694ff20bdd1dde71ee3453f880fc4b, 0x0);
  (-1, 0x928db8b65426af98fd79f4e7a2440c06ca4542ec4088200132270711934f8d75, 0xcae2742bbf4af2abc8631334435b79a8ab1db99e7e0fbe1c5bdd7721b6a6835b);
  (0, 0xa950e3e2bc5047fd195c4cdee03f0b61e1118a2410559658e31e567d2deac14d, 0x0);
  (-1, 0x67f7df38fcd154276d62a17d81e954adfd88420e58aca36db424e80a93912b5d, 0x3bec6bcb096b85bbc605ebdefa02b288e330238ace35c50b9aa5fa5067fd4c17);
  (0, 0x11913ff4995049bf4b1d956cdd17e335cbf65cc21be180afd749649c304bdae2, 0x0);
  (0, 0x78b04f35a80f8778ad82db22de9849c1696efedcd9580e016adfd064712f06d4, 0x0);
  (-1, 0x9a7532d0c52b6159401e2b4f6fb5adf3464ad1cc79c13f4cc8e17a8120d388be, 0x47d285c2ac627362526961434dd431d4a761b41a8a9b90422aa40086d9df9a1b);
  (0, 0x8fb91c4882ba854c608420e13e282f0592f47cddd45bcf0e631f805c0c88caaa, 0x0);
  (1, 0x9f21cd1c23957a8161a71ab67a53f5c4678e7ddff5a4d4bf89fa0ec3badaa347, 0xcc07e395d1af2c2396f5955ee396a6bcb47f9946334d2e1066c21f942b721bdf);
  (0, 0xbaf6cd3b8a52e3c0ac620c6f799582a7f448fec9854802d95cdd85e26d777186, 0x0);
  (1, 0xf352701019a02846ee0295b11d24b53eb91952f183902f36b3a29139acb4b1f1, 0x40757ea9a4a230825d386e52abe25bc9a7414ccb5deb8d9615036555bf25652);
  (0, 0xc4cb11ece8e6046c5afe699d5c51ed8e02c83ddec58bbdf16130690092754b57, 0x0);
  (-1, 0x113edd48e7ecc41f34f0ddd3b999b00de20901a347fe5361274c12a1dc6b51fc, 0x463164c07026e9ad0ce7e9b2c3dace08e45b7d1bd53e1598af29545a848a0995);
  (0, 0x9bec926f9aa7894f4aee85cbce22c4efe70286a3c48b5ad1a640c9b81ff42d3c, 0x0);
  (0, 0xcaca1b3b2967ec30f0135af8f2971d4f6532f03d118a72da29d1fd59705e8947, 0x0);
  (0, 0x84587e0cf21ce9725f659436b2e0de1e373e4c1c9464b75d28a4aa164c87aed9, 0x0);
  (0, 0xeb9188cd2e4217e8dc0f598d4a5daae9ab0dee7a7e04dc7b38fe0ee31622dbdf, 0x0);
  (0, 0x9142df75c588928d48c95628e22c864c5f718b2b62bbad5fcd22bdcb506c6540, 0x0);
  (0, 0xdd4e53296825b4fd9bf8d4f7389f351b46c292719c3514ec764eb7312b16a6f2, 0x0);
  (0, 0xc221fe44e12e05e89b4e78e9c130a8a9b09eb19a7ee3fc7bd32e3065207de6f2, 0x0);
  (0, 0x16e912055679d6c7310879ae01f804d798d41335a512a593ad28446cdd6f6fdd, 0x0);
  (-1, 0x423d349aee324e47563c72c31d763de800fe1b19a17f66910de6779164f957b2, 0x79a8e7543c8b3527715e2d02d5cb6a57877985ca2820ecb2572e61cadda9694d);
  (0, 0x17b933c4f55588df7fdbe2ecc2ae8307d601ebae671ccf463e47876fe40ee09c, 0x0);
  (-1, 0x8c2faeb4f4a66074becda645078302ecfc28afa2bda126c86781ac6b1415e863, 0x7835443ae532cea814ae27877f5c4fa05c5487f8584a7e5c8b9f992678844943);
  (0, 0x6b6956466f9cd6b4c4891dd99829570cafecb552e0d036e529ce2ed372eeab9f, 0x0);
  (-1, 0xb0ec9152490005736feac14a98a42ee395afb7a606b3064434e3a0d3db1e4e3d, 0x5a817d34aed59fbb55b8b9e7fe4a0b4e020a2c2225ae232a800d942d0aef2793);
  (0, 0xcbc1e7d22d9bbc6748cad47931008f959388ce36931e5ba94ea702796865d3fa, 0x0);
  (0, 0x9802049df573283ce3bb082a8848885778e957a6cac716ac1e3a81bf8dd7e86c, 0x0);
  (0, 0xe382f388382fe961c444b1ec26a36bc17610bc4142cf3b4593d88640a545f883, 0x0);
  (0, 0x9c3f151b54f79f752dda9d8bed92c27af105d1cd238031685b97efcb919d694b, 0x0);
  (-1, 0x8d6c1a622d7e58c0b4a2eb058568dfcb3ba7bf928103c54b07e3055208dee94e, 0xdb7c33fc6895328ea18b394ad80096015e3d3084c96c401b47d5b1335d866a37);
  (0, 0xfcc51b4dc61b54bdddf2eb684d3cb7f0c64a826194c55773acd82d6971b86887, 0x0);
  (0, 0xcc2708da7fff2aae45c704bab2075d09a2e09500aac54786944b7a9e83833cdd, 0x0);
  (0, 0xcfe89d14a8e6a1399466efe2727f0ebdfdb01a11f80f7b442c1d89a4e13b23cd, 0x0);
  (0, 0x65fcb6188260868fd67c5dd495c4cf00e1db09161c762713a9f929008310c347, 0x0);
  (-1, 0xa0a7ef74db9c02368a43b53f211896eca61a9734a066f9daddf254c5f29b3b75, 0x65c496a1fd90d57b235865f77d30dbca4a2fee9106c143350bce7f3c61348143);
  (0, 0x222cadeb981937a51a497e6da08d6a2247a8d40d9d3455945288325db047edad, 0x0);
  (0, 0x783028db53dc9f1d21b1bfa2c39514c15314f60232362bca4b4a5c166140a94d, 0x0);
  (1, 0xb61f40b9cc84086c2b45fc640844d271575570fa72813386cf61f70ac65ffea7, 0xd336328c356f104d70af2e7ab9d0632f7c50212a0d05a00aba14fff4e8e060e);
  (0, 0xee45bd6d253bad9a49caea7a98ebe7fd07bc49610b7a85f765b07cb15e21ba55, 0x0);
  (1, 0x8613b05d75dab65667356791364a28e071ca7a3c9af0a9df291126adddb3c355, 0xd3cf28529693e79922448eb134cedc3bcbd612d8405e4d9e9512288a4494a3e4);
  (0, 0xdc1ee4fb9ac8c373bde258b587b549503a6a0ab72194f92b08f8610752714353, 0x0);
  (-1, 0xb86f75f9eaf47d899c6a3e7bdc98053d3e9613ed7fba654b703491a28c0d2c4a, 0x1e87e9a6b4e971aafc2e6a4b2d5ccf670a8c6501059c727796547be7e5da2297);
  (0, 0xfc838f20e2465ea110d8431984c4451c3cd7b7afbbfd6c1f86a88fb9916b9db5, 0x0);
  (-1, 0x6a4057bc3d2128e1ba52cf48d95ab4d5d814bd47b3d256dffb502210a450d800, 0x75ff989167193279644970805ab083d1721bd80dc90a684b57e7c71af7d219c3);
  (0, 0x5bdd0988977821a9dc7c86d0f4c596d7af1096ade2f97bb4d2ba2f657ef87ad5, 0x0);
  (-1, 0x2bece8792f4635121827b4540d57a17e6b5d023741f721f9c9e4e7ccb4cba5ad, 0xe3b2b88f59e9e18ead2798e1c8c11ea14d02a7be1256fb8e2c89bdc83aac17b6);
  (0, 0xc0af98f7ee2f0c1530e2b3a07729d8b277c47be7576fefc4f3c9a02885ab7b4c, 0x0);
  (1, 0xecba45b2c1293d837a76d225245d367d4fdd7281a2e3a635b9425a9bafaab7dc, 0x43a37f92eb1504e8275f7b203ac32f84cd316b3d327550581e489bc61e6dc747);
  (0, 0x96e922f97e80da4a349ca657203e614d1e901a19633b5e6747d1c53410b1a81e, 0x0);
  (0, 0x6ed2cd337eab515b20e325782fbf7278c1162bd7c5f61e6ecd9145ab311ba5c3, 0x0);
  (0, 0xa494ee18a8378dc1fc3e745f33de0feb0ac256f776830b25284537df272b0e93, 0x0);
  (-1, 0x8ad7c48b8783c058f3cbb92599f62149537303768779ecd3f78d39b2a940264b, 0x638b676ba871e6e915af70dd2a6a76635954e47deeeb44d0a47d9b999c9ff3b8);
  (0, 0xedf3ec9a6483cdddd6f8415eedb5bd1f4ebc582ba397e0e53b15ce1eeb4095c6, 0x0);
  (-1, 0x9aee1ba4f03a5d0e707a7b54deebce80666bd049fdaef490591e55ceff589ba5, 0x8f0a9b3b887451b97235e903f9337e5caf6726b1bc8035d890666da0fa1d990);
  (0, 0xbbe425bd0d0c313fb1ef7faef313296302e7653b6d74eb3d3095242e680cfe01, 0x0);
  (0, 0x26082e35d70ce419c3243a231b945a146197c19d689d6796e2bbff511a693f56, 0x0);
  (0, 0xd8770ceb970f841a517431518883859cef3a8bc67e1b08b51fbecbccdd287f50, 0x0);
  (-1, 0x8e3632680debcba9ac9ab58b65e1647c8b4b59df798ef3a372d72afe0d2b98d0, 0x22eeeef29c55d0d4c833ca83cab3885c23afe7d25ba290f27b70f143ae130984);
  (0, 0x22695d3f0cf35b064d75ae749f95a5a4e5d5be49aa4ca05dc5b395f317091086, 0x0);
  (1, 0xcf33254d87f4d340ba668ef445832e4c2b59374f0c9f36c5f4db785cd3af1ba8, 0x8b5e39576cef153d0e4b2e52211427bd955c25edf38911ee4243dbf62c8321e8);
  (0, 0x10f231b060ba1d8ff8778337e77ba77b74844e794b0a10f3facaaf6535946d44, 0x0);
  (-1, 0xbb674cbaaada8b715a41e520b95ccaa36e7a26dde5a3193e0464986f935b0b19, 0x45df500571e78e75d1890bfe517e5bf2947f36e4752adc2a59b9077aa6c1e972);
  (0, 0xff73e2ddbff6a01952e126b30e7e26c7f69a6badf69032bd7efbaf347c4b039e, 0x0);
  (1, 0xab7a7498d4b2a0c25258c68f53089a14259f90250f1c2553e518b68343254f83, 0xdad57d96b689cddac404e9ce8318c4344a9ea2043dec0b63cbae84b1179b2461);
  (0, 0xb55b69f7942b152f3b3786bcd55df9d37a567573061d6bf1c5453776703fe066, 0x0);
  (0, 0xeb0ed3bfb0087612e6e78dfd42cf463cbaed055edad8e15196cbe5b939c4c55c, 0x0);
  (0, 0x97f2ae32e1264af6259dcab5e3392061cf460ad02a83d59303347570bd8bacec, 0x0);
  (0, 0xe39f3baf7fe695149f7781780f0740f116ed228b8d232393b7666fc139c0b127, 0x0);
  (-1, 0xd52cb8fbe9b68c14c516ad4e5a64db8f524db1bfdef9ce0e048c95e20d728ee9, 0x8e84c4d8bafc0a4eefe3e6b3d65b2b22e1eabaec529aa8a2272dd08f73f97990);
  (0, 0xddcd0dc4397befff7a1f27881ed4f3edbfa405aed944464393f31821a4c86eb7, 0x0);
  (1, 0x64a89394e36d714c827b45be812714933956a6840cf1a2e5bc97210950170e45, 0x15779f47ef33890944d338e441540c9c0051c8282410525a3121796cf089007e);
  (0, 0x403c5b65d0fd67c4ca2fe1038f63453413a1ea614a28b46fd006bce34575be95, 0x0);
  (1, 0x7b88a5c9a928b2f63f97f53004b8ea072cdb7e2db3233f24da7317dc17382960, 0x839163a595f7a4a13b477ba75684020fc9df3078c82ad478d02dd537b8784e15);
  (0, 0x64523fbd7b6eb9602c899d0499a0f69c32579726c34627e2ecb19f65eb63fa6e, 0x0);
  (-1, 0xb4e52f7b3c0fba8c8fa20f9518b77ca6a9a0a6f47f8ae0637e0cd3f345e0701b, 0x1586f5b59dac6e5073be7b601cf0dbcb4f0eb010f31b2e79fdbf5272fc94d7e5);
  (0, 0xa4849842e98f7891fc74e1d7f9b4c799a655e12d266bd6c9eb10fdd1a293e263, 0x0);
  (1, 0xacacc7cef97aa2787fbc18a182e764c07b601ff1e15bad886d0fbff20fec106c, 0xd3c14f1cd95c6bd2404200b84f4f926e71a35eeb90785e2d37afc0c421e856c0);
  (0, 0xb9a6d483cb1a0d7e1539b2e9e5f525ffe44eb6b567539757c337f96075471e61, 0x0);
  (-1, 0xe0063e6f056d34eba1d61b8bfe237b66e7ee035abeff9137e84b08f067bd951d, 0xa5bd75023efee41cf10f7849f2f65de0f7dd6180522c9301cdfddb1acde19e72);
  (0, 0x5e314a72b17fb59a526ae62fbda0755820189ca589919d9df06507082a22503d, 0x0);
  (0, 0x3ad8ad057227439bf1469d42613424a17521ab1d907d77632bf3a47c4d14ea83, 0x0);
  (-1, 0xe3ace6141daa747515060554c68f2d28fba7dae3e22251ea620de4a7b398ce21, 0xe5f18497c9667d290998d01126a250e837ee1a42baf84b2db1405c6a68c3d4ea);
  (0, 0x9d23b0c519df452ba6111a53babb1b038874a9464c4c331e21f89adf4fe93152, 0x0);
  (0, 0xc2500c1fe7473b85e1548557253d2630e8fd9dbe9f5ee8c57bd80d9215cb6115, 0x0);
  (0, 0x2a2a1db471536b39823afdb3f0ef4ad4f715a78572620d47de86299a155ffb12, 0x0);
  (0, 0x15ad76019ebe3d83c49f0baa25d5ed57c469d73c5ea97d69999b8389930f3db8, 0x0);
  (1, 0x140d75f5a2d0a6fb6ef53f7ac6379a092133bde71d899e54abbf87b3b3b762b6, 0x530b3e8b645e49f7367f244252342e5287ce127e5bac7c9848c7052b0a65c09b);
  (0, 0x53ede41ff16880265be24323e686728de88f9d3a8e0970912288ad077efc6cd, 0x0);
  (1, 0x3046aad621b8b7648aafd9160a4ee43430a4085987cdc0a305c95557fba46a3, 0x73dd184f0c29ab5f828d2256aa1eb1312435bda9279fd3ce743d4db8622158e4);
  (0, 0x3dd50442f3b8b77877d98363edbc68cb3b3750781a8affeda472b55672bda933, 0x0);
  (-1, 0x353d8db27a8a4afe9f6b23c610108928bf70b92b729593820ddbf3d36bb29d34, 0x8fee8030879663bc476690689a888159a2049148e1dd42177ffc8d0a161f6d1e);
  (0, 0xb718e995fefd5186126e57d11015b5454c7c48a3310bfa482699ad73d0f64234, 0x0);
  (0, 0x483b1258730076e9843f1b7338970d6be9be614d872f488b841e42fc7d9218b4, 0x0);
  (0, 0xe8dfdc0a9f577ec1d646fc4b75269c765c6a3f5b26f08893c12bef014dc5fa6f, 0x0);
  (0, 0xde1d816460b6b9e50ed58f6a90c7ab541e8a165ac20862d5131ae2f3c1db963b, 0x0);
  (-1, 0x347ae593f2ee04a679f89f7f1cab1508feed35e7947e44b869051c223ea2a470, 0x143ad0b03eb6de0095da2935599394d88994cc80f10d0c4de46e0d1ae97e64e1);
  (0, 0xf6c18b1fb31f34b748e04e299da761f81ed3d2be2bc04c3431b9d2f4f37ec830, 0x0);
  (-1, 0xae3ecea91355f2f77b31e1328c41d85dba57b7f676813fc716aadbccccbcaa0f, 0x33fd7141448cb8c38306cbc86bd91a41d13ec1f56faadc6bb3d73feca23fec59);
  (0, 0x7e4b3b76cdb4e9701ae41dbceceb22ab3972688cbfa16c4e5bc2b5c82d7d7771, 0x0);
  (0, 0x108cf04cd6f2dd12384ebd860299a309e6125c8a1a787f5b018c81fb91b7a59e, 0x0);
  (0, 0xd4ecb3727b2cafc41413190cfa166801de1a7d50e757a256149a7dd14044d0e7, 0x0);
  (1, 0x650d0b236fc3806214da968117360e42e0478db732959d91bfda2681405d56a8, 0x2401e4056c94b11835d9f4ac22bbe779fbdfce7cd3a0e5ecdc5686908e8b8919);
  (0, 0xfcb6ae209f2ab514ad83941f50b8dd674fdb2acb4172ee8a310e23a651b7ec0e, 0x0);
  (-1, 0xbdacf103b9da404524d717c02c754e1e45e0382aa390ea03d16b802a37719bc1, 0xc997ded7dda265f4d085f78c05417aa2e797e084b333846ac3c1b430b99b2c37);
  (0, 0xa05568a8efc6bc840a3abcbb9ee5d174f2334399320a361f068a20f5f662268f, 0x0);
  (-1, 0xefce897f7da3e8a31b10e13a7ff733c03f5d51a2776a79f8fae813bf30ce5302, 0x4163c6bc0d04837f56483bd19f6c9908ae7b6c689fb6483a8126fc1196ee7cba);
  (0, 0x9e879229e6326d7c9ce985d09df40845f7a158e35801ec1c73cbc578a1a826be, 0x0);
  (0, 0xe171c5ea8aedef24598aba8fa738e3551a5ae8ed7bbabd9ecd44fbebfad06275, 0x0);
  (1, 0xd59144c49abbcb34ca68fd9d4fc2857937f5c9870e3bd22221a14532b49377f3, 0xd4e4d2a9fd18e1e97592a3ea3175baa3a82d286f81a0de9129a142d751d1d675);
  (0, 0x47372e1120a5dde5a4aae384b1d7a97971b1df918adb51b83ed9435caecb9012, 0x0);
  (1, 0x6a199b0992acb54cba122752a8bf8b05dccf91d8a6c32e04168c9451f4039c1a, 0xd2586d6cb9dc0357a530c681dadbe127bacfbd90529b458b9f5d92054e91c979);
  (0, 0xc8d4754825948021ab7809f3042f9bd5d05fdf039ff71d584b5541285ab67910, 0x0);
  (0, 0xceb8e084561357949ad1a915f501ac4afcb061522ebdce0e2e53f4e54a50def6, 0x0);
  (-1, 0x9690bc77f2932f9f43ba872e0e52062fb7b1705797c07db298a63423b83191e9, 0x993bec25cff233b90fe4128411e3713b348310f1e4e0c198672218c478b31325);
  (0, 0x1782a7772161fd31904472f4c56ae4053a581a84cab39d402a11eba6294b5943, 0x0);
  (-1, 0x7a630286d816bb3bf58acca9d9389790821aa016e25709619135520deef7963, 0x29f88a98b6de689eea694e769a438cf4c721d42ba3f9a58f8565e1ee91467eb1);
  (0, 0xe6431358d15dda03178d5a27e0a8bfc868a165aa41e85eb22348834b62e1d6d2, 0x0);
  (0, 0xa93eaba3a50d6b5b6bdb4b25a34ceecf625e64f83fb6735b950a3ebb3951af77, 0x0);
  (0, 0x9664d3e2f52fef4e6b344e373e7c776fed636f2ba708f8da6d5c595c30bf5f0b, 0x0);
  (-1, 0x53fd1c3f99e4d7404a6b0a0c4c892999c084bb6302524fc01feea5c202832681, 0x7e1924c80f0873837522bf84ea62f84fe9b23a2c8db82d9c4904f638da07b487);
  (0, 0x5f600fa8b4359aa59d7d4e1fa77b2eb2d0af798d0e4d0efe62d6ba195552a0d5, 0x0);
  (0, 0xcbbdae9de7eba68599716a1c28fa76e448599051764e418e240de72f5ae519cc, 0x0);
  (0, 0xb4acef18ec4baaaead7b73e05c6880b5d8cae1c15e30320f4304629079ac6d82, 0x0);
  (-1, 0x11675c68b9db6384934bee748484d5b4384cdcfbd93ca15ea56ff8eb0910b7a3, 0xc23996f132e090de6570d4c614c42f54b7b735942a1f0fe69ad51793009cebbb);
  (0, 0x724ad9d41995c5b09ab7ed8e6dba758da19a7154e8cdb55a9019468c8410ffcb, 0x0);
  (1, 0x1ffe522b2adc704562b085d0c77b11481efc3e0b650836b3386a0f802856c053, 0x623d6a9866b05e47d5492d57af45fb4cbe389da47139b4b883d4483ca775bb28);
  (0, 0xdc1332397aa8e082f4a493f97f7a1427c2131b9bf592466adb996535a5b45a97, 0x0);
  (1, 0x28e73a9ddff73daad5e4c35d0a8d7ae69e85e3862a80e4e6d25b5415202ea0a8, 0xae350bb325a1b9b1ee7afbea7b1702e0a68d77481091db36068d176a8b61c4bd);
  (0, 0x97ed38127075cf4ef37cad74527f466690d78cd760927204d452ba74b6208468, 0x0);
  (-1, 0x9e2754e15a5ef47a4c8a761ee187331f4e4c36aca63816964c0206d8464da91c, 0x6d994e649ad48df9a7746072fa670aab5f587716aa4866ecbe994e297ff194b6);
  (0, 0x6efbd9819ff2457532054960e58bd4d8f934eae6efd9164c5dca5b12be4b3a2, 0x0);
  (0, 0xc3d06098ef9dccb99ce4463aa191604ab538ef5e61f537d94991027e0ae22146, 0x0);
  (0, 0x1ce21e2b93c79d36bf69e8ff7d5a56c41dc8a95bdaf224fa37c2b1bdf5f1f881, 0x0);
  (0, 0xa418f2fe31d9a2b6fc3f5ad28a1ee116a0caca69e025fecfba34a06729e6276b, 0x0);
  (-1, 0xa8468c9fb63118acdb6cf05aef74d965945129c94e623c419c896768dcbfbce9, 0x8878df5fd33d759a786743f5dcce4ebe96b67bd6a9726e722cb6d597171cd7df);
  (0, 0xc5d31cab20dd063ed113ed72aee47e8649b4a6516155cff0ae9f4a5014920674, 0x0);
  (-1, 0xa433abb908ba6fd1882ea7f9f1b66ec88785fdd5ca375aa35971ad6bb8a7b030, 0x1a37468000089f98f91bc3f7298bce471076f73efb06a1b51f7ef4c539c58f8);
  (0, 0x4e2b5c5d83df212bc4612ec4e37953a4cf79172acc59be2b93f041d99bd49f94, 0x0);
  (1, 0x554813f8c49e6c608ef12832468a866e987efc20b294b8fc8a99955302520293, 0x532459ae9f56b8556f0b5521e9718eb84c464dfc1e0c7e4ba3d8baa77f322a99);
  (0, 0xb035db12d142a4c15c9d8be514a5b8230cdb034142cc723c0537c643729c645d, 0x0);
  (-1, 0xc6e8186bace6eb8ce46d3332e7e82d8d304d6a9f40f8d83b697b7102b7043d9a, 0xfdba6b55544baf546372c2ad558dbc6371b8c1791843d6e3ba9e14e4dcdaefb2);
  (0, 0xdce9fac18ccd42493076a3eea808d53a332e277dd43acde97f9c486e025bd0e, 0x0);
  (0, 0xf9868199c18f2d97f9031d844fd17d097a98d32f54bead0c0e68f9ba882a8bcf, 0x0);
  (1, 0xf6760e96f7838216d3679928ee992155d514f575fff4053eb15dd7e5504f4a80, 0x7d9fa1e4bac144bf1b61fd8fc5151f22715d011f7c5d42e6c46eb91b2ac7f18);
  (0, 0x5cc347e3dad49c55f7d692cedd6e2af103cfc92f07f129dd51e544746292fcd7, 0x0);
  (0, 0xed1930628ba61b9600ede70631058c82ce1ace00c030e64c8bc11a5ab7a2dbd8, 0x0);
  (0, 0x5b6018c018224ead79d50186b8ac06db91243bc831636cb7ea4bf119288452ef, 0x0);
  (-1, 0xa2d25ae95648344531ef9aea75b23ab027c6161b4252892729fecc84c8a16922, 0x5cab649884486ccc43bd7b76688d9ef035580eade49920b43da5c2a395e7a372);
  (0, 0x9038c056d9d42dacc7abefba4b515ae0e6c5379629495b58ed4e33220036e184, 0x0);
  (-1, 0x684cbd55a0e120f027f186feec8bc1a6ef2f8be88f9d4d1706b60096bcfa1aa9, 0x428873383916fb424cb82e22fc717ba30fb5590559417d5c82824508aab40897);
  (0, 0x3a62a4fa0be75b733ca6bed74adb1b03028685d3ff06bddcd65fa25a49882c0b, 0x0);
  (0, 0x2a6fcfb5150d36ec419dd6eac2260386ddf5f49ac7be386cabf1bf76dc1ff100, 0x0);
  (0, 0x8a577f667ee6e87641712721e3ecfc8d2180a0fc56b0725d6b0ea1b4c15e64d9, 0x0);
  (-1, 0x2e980de75579514a06d9faba53ba62eb64ce1d18fead5e30fbb7aed2d2c244ea, 0x5a9f96e47cdab1d208a9eb639bca9dfe3226c7d833060789861908123124e4ea);
  (0, 0x793e5195e6ed8e7a89abd3370113a1c435507ca7f723be8133a816c7eafce6a9, 0x0);
  (0, 0xb83a1ad9ec28613fc670147726c2a1bc63a1aa4baa4d853bd4557232a8c19fe3, 0x0);
  (-1, 0xb7b9e7134a801b30d65489516bb2268a14954f62fdd9e47451a4564b5eeb0928, 0x6b23e45e07b680ed8b0d6448f8e1abf4b2ce6ee2156efbfcf838be9b89de3fa5);
  (0, 0x27ea2fb5d5c7458efb8297e2b48f90f81718a0dc01399e2f9313337b6fb2252a, 0x0);
  (1, 0xab875f3d596ffe2ee9d2291e3138ac7532913a764393843e0d2acd0b6bac9867, 0x216f212434622e998f17760d60a247b38170e8139eb30e2bc50e54d5ac6a5cf1);
  (0, 0xee9b44c177adea62f3041e89b872bf4fe2bb46f347a3988c2ec5e5f891d4ee, 0x0);
  (-1, 0x82f3d83b436989d1bf4077344e0b6a27c91ccb88acefd43c8719a559b3f8dcc3, 0x825961c628e4baf7ecf71f59a029319e7ccf4c571bc1b005dd7ed3d4d12bb80c);
  (0, 0xaa85644e23a9571e40423bd061f3d6473f47df82f13ff2e9a1100b7f0ac52e54, 0x0);
  (0, 0xe17ab1e89fe6e639dd6a45e7684a163ff01c44972cac16a02f41dce5467726df, 0x0);
  (0, 0x6a321a840a7f57b5e43ca3d4b39f84c0b158e8dea0d8c6c46c52e922b85c54d8, 0x0);
  (0, 0xbb0f86af18bcc4b0026f46b46179c7083f55bb6e05d4145be787e739b5a2ac2b, 0x0);
  (1, 0xbba162a49840bc68bc9bcda399ecc003b92f1ecf91c8897ed689a8343f48685, 0xc174220f145f78986464d9c36c9da3b06a520658208278217cb92f3a511b926e);
  (0, 0x936771f0c67607b7717120c71af4f1dd65fa55954f30967bbf14e6a516e68b61, 0x0);
  (1, 0x78ebab31344089551be0a445a7fce9b88129b862d1d760417e64059e6437a4af, 0xcb398056de10137573b9f91af5baf0c7bec4692d494ddacc38fd016ed7a5db08);
  (0, 0x66b0c294ec4303401524bfae3d01626c2244994141c5b9c8790b437b168d70a6, 0x0);
  (-1, 0x2dd7c99285bceebe0b3b0b9967010c7c5bc23c0ca29034d48a594430da3a3c31, 0x905aaf215f1256a2e5a8a908b7318065bc27691e9cc918ff1fc3bd077cca44c8);
  (0, 0xce6f7226355d81598b3d9b3ab6e229dc963cde0790eee59cb06e6bb798ccab25, 0x0);
  (-1, 0x8e3556b47432cc77d15615f4b625c63837e0e95890945caeb47b61c5af448e03, 0x130a4d5857b6c4c6e5107a313ec989d98e69ae6fd70dae3f72b137af4a465fb1);
  (0, 0xad5626e404a1091f826ab57f0069885495efbf8eed991e6bdfc417b926cdff21, 0x0);
  (0, 0x8a88b29ec5f7a0c50c3882747d3bd035c9df41a0f3ee44f94bc68fb4a1d3e20f, 0x0);
  (1, 0x7e8dda78c62b6e1ed53565c829662edb7084825803904dc9d067f507f690ed9f, 0xe68ecab58ff1f1833faf3850a6ed17d69982ccd7d7f044595ce1ce3a6262233);
  (0, 0x4358bdcf410ba750832f6f498b4756785fad4e63ddebc7d1841235ba55b8c26c, 0x0);
  (0, 0x9207d3c4f4e1d12bf01c5801ab66a9ab5ba06d6be7c7997404deb5b448434701, 0x0);
  (1, 0xaaf53e548340b74b3daea8d066a1b5d86429c3def7e8310eb2b1ffa5dc197d9d, 0xda3d6faab66e3289d5c082cde0cabb6c94c870f0ecb6e79113aa95392f01eead);
  (0, 0x7fd9a8729b0ad939d2ee4ac1b6f5ca7b0751c1356bad0a2949042242545ecd32, 0x0);
  (0, 0xf406f58d10f6cf630fdbb46222406eb74cbedfe84c0a3535132e901751f60281, 0x0);
  (0, 0x9257288102da69950e2a795ed98f461841fb0f7995e95f53fc91be7e14252202, 0x0);
  (-1, 0xe20fdb0e73f9880d65e2bb40347ecb172e527f00d4fe35c2c504b582f7eff28, 0x38fbd325ee23852e87f57a272398aecb8c5eba664390a04dcb1454825a3e4bcb);
  (0, 0xfc9751c130b29794da624bd99e80cfed193a35775a6fe926d49794f72b67e978, 0x0);
  (1, 0xdf5fabae373e80fb70e6c9a25c0c1d553444867af272f18555c887bdfd997b06, 0x601348b832f53f53599f88d93e3d423a72809ee4937b9e3eddf1626cddd8c5a);
  (0, 0x32260f13fd67ca659cd8df72931bd71130157e934a07ab4dcb8e17b07d31a05d, 0x0);
  (0, 0xba40b5ae541812dffeba297401c2cea5c85fad880a3d9379fc54ba6328f5bf1d, 0x0);
  (1, 0xf92c63e1318e94706bbe04a736af0ad90d4d0be16c5a71d0522f880a0e8628ed, 0x1b50a9b228893a1ca9c894124f65ae636785992a141d5a180844630a6ff95151);
  (0, 0x96dc15751a91e373299efe889ab7f4f1f0cbd6c32665eb3cd72a062e95d366d1, 0x0);
  (0, 0x45118e8ebb767ed12ec92f0fce3759d1cb0d2d1100e62ca99a4384b5d822b376, 0x0);
  (0, 0xe6ef1faff5fc7813fc2eb2cf591981dcd8d9ad91d0d0db8a06631b585e3bdd5d, 0x0);
  (0, 0xece4b3ab9a6609bcc248675d80b66b4937c6997a6dca3ab683791342747d3087, 0x0);
  (1, 0xe431de582982f8e37471cc04668d7157a04f730b6eeaf5b6805c93ba8ba3abd3, 0xd20d1d87c9cce2c911a70a6e779110ade9e0080b069d27e02808bc7f99fca733);
  (0, 0xd955f49cd3a311766ba5c99dce5c36eaa956f62f0e4c3f4e8a4016fdda9311f5, 0x0);
  (0, 0xfd4b72c0b64bb693a91ebc09a6c5b954b98c9b1a169ae9d4771f88e0cd1ffd3f, 0x0);
  (1, 0x5937e3e4eb95c60502d513d80103c5014a6b0ed764ee5d8365d6f487142a7ddf, 0x6038103eebb4c83fea6bdfc115500f452ebcf9ffdbe170bb04d9ce3348fa5225);
  (0, 0x4251007395370d9606a2f3fddfce4e5b1cdb9183c02e7df8c42761db62546227, 0x0);
  (-1, 0x54ea35374db295696c971d63ed0eb5a24245f4b5aceace67877b1694ee0993ec, 0x4c6af992b1a89fca6c55b6cee6aa339107200d24a68a38ecd55eb4c402820035);
  (0, 0x48367e19df34cf6195cc2617dfbea68d7717ee18eea19bdbe83432944df1a6f5, 0x0);
  (1, 0xaac03fa4d82fe74f7d245cc88ed95dc1478fa5ded9721ab8dc6eed0811ffbebc, 0x1992d762a717761afb7735c930453d0cda24196cafb9c0cd5367f32d77d375a5);
  (0, 0x2d5d06b919d13881957b1876ef6871bcdd38d82cea414b1bfe12da7a858a4847, 0x0);
  (-1, 0xa1feb5fb5cb2b7b78648fc659a051dab473e4d49923918ae9dd781acc302f9c5, 0x165491e174656d5841a4479b5a8784ba40284e9a71183ca395378d976f628425);
  (0, 0xa920acb78fa72385bf66c4a95a358cee4d9e9c9de9d365b8ed91b81baf04aa8b, 0x0);
  (0, 0x6f8de5c19bcf31b3e0645756ab5ce3f2796d87d96669646d571641c88ebc6f49, 0x0);
  (-1, 0xc0d57916fe1f1df176d96338f8cb7acdeb2cd3301945ab72a7f18eeab400541d, 0xafadeee7e0d812e5fe48ec4894789c766c22e83d02a96f1f428edcec557425e4);
  (0, 0x161ce08f7012eb67f9a4a620df5caa80893a674d8df241acaeba5f101c711ed8, 0x0);
  (0, 0xdd4157e3ec2fc111f1c2cbcf5afad2cfa39eb573e16a79d9cf817a8b0e9c9b9e, 0x0);
  (0, 0x3c12ccf7939126de0a50c3341d13b6629d14dde46c6365bed814bcbf2618bcc5, 0x0);
  (0, 0x89fc831e862058f7523d28a50c807d8c53cf6454c8829bf0171bc7c74c0d5d0f, 0x0);
  (0, 0xb7cbb29366bdf5ed6c942626adc8c5fc6c55fc5c687632efcfdf9d50b8888a98, 0x0);
  (1, 0x5c604e8e4c70a83de3e5801c0f4a975f27b9c5999441a52e852a535331190c85, 0xef2d776c20eb40103968515c812942cb4feacebadf26aeea6befeec31f5e487a);
  (0, 0xbabc78b8b9952ed7d7bd40624b3f1055674e36e2b30c3a6fbf45c723c46473f4, 0x0);
  (0, 0xb3b7d8b614eb1fa34fe281b93b8f138bd6fe20fcd156b58c9eecc89e67eb9f66, 0x0);
  (0, 0x65340f135f0a19548616b48dfa15c1f430b53c791d46db3d2d15c416fe906d58, 0x0);
  (0, 0x573569df04e28c3ab9f99099a455f7f8056a0e13c315000b3d3a6f7194d41e52, 0x0);
  (0, 0xe0ce93506e0e9491d5e49516eb64ea66a7360c9a1ccd03d8be49bae26cf3de61, 0x0);
  (-1, 0xdd374da104667425f52dcb7a2ff1f40a8294a6262d22b9f8b8218bffcb8b3978, 0xcfba8979e3ce196a9f8285befcdb2255722c670e038e6416ee5aa8ad8e5684e);
  (0, 0xb4901218b698f5871906c390d746eb3d4907bf4e70a3f8273803ca0dd4fe1773, 0x0);
  (0, 0x2c4e688411f837a07deb5ab584ad75e0633b8c18a0ca720bee016ca61487d916, 0x0);
  (1, 0x29e16f71977bbe14cfd387499e1eea9c5da35e929a56053e84edf95162c7205f, 0x318b76b0a6f263a8ae4444d735ba02f3084b8debc1bb4c7b9804a2bdcf1d6a01);
  (0, 0x4b6d96d0e39581d0c49b7bf88b8905d565413eacc256ebdeae0d9c0c99e5962b, 0x0);
  (-1, 0x510651d8b2da12e757268ff7833f1b728ec4bc67b016542d79934bee0468831e, 0xaaa990dfc6f6ac6201f57ede78adce05a294e7fd4e5eae30cfd0d457250714d);
  (0, 0xf9503759a6b0e4943e3650727698824c5fcd3f3c799cdfb8a1671f2de98ae0c4, 0x0);
  (-1, 0xce389ce6502894da263cd985ed7637ab80b75fb23979b058f080a59379d376b2, 0x71a1f126681f25a298c1c33093ed396de9145bcd66b6bb88a282968cb2460be4);
  (0, 0x314d2d39b86e0aaa5b28a7648ffa03a0c3226e2d0dce5bcb0ee22eaf1b52ead8, 0x0);
  (0, 0x618f1793c7c38d2f26a2c1817ab2ec77fda9369b035cd1bbd779c4acbb9cb7a0, 0x0);
  (0, 0xf7794d5cf9141e529c95701bbdb7951e635c5fce96f2553bdd71a2689d5a8c90, 0x0);
  (0, 0xa7891e618fb27cf331d821f4b0ac3422aa217dc9ff00c53037a63863e5dbf725, 0x0);
  (0, 0xd288130da811273a8265b1ab4e034d4bd862b318ffd38f8ae4f7ee547e29547e, 0x0);
  (-1, 0x2a51a9244ef0f255bba1ebd25d9687679094e3ffbfcc73c4cdcf873bead1e800, 0xb66fdc0326d23a59dff4445d9ec101f4e815bc4ff66296a2f0edba686ddcb47a);
  (0, 0x8b85aa7e3a27d95b5fb68968c6a48920e0f67c86eece1c08141b27c800645e05, 0x0);
  (-1, 0xc2fa2cadaa6fe3167935d87a71bf7575e5d471434067f79b6a04c5e2ecd1435f, 0xc289352b44cfd263b60308585e5da50e4a95f0cbc5b8744c554a4b74fed5f1b);
  (0, 0x25b153f2fa434cce5c8fbf4f5ce692e09161707c2f1f33556666681e011bf68f, 0x0);
  (1, 0x7e77d7908b55033d8c2ecf1fdc32f3758291a8d9c81d124480cfbc187bf4d49b, 0x8a59a372e4196c945269c81c2ea67a818861e142edbbc4fe6ca8e52ddf72d1c9);
  (0, 0x728e419f8340a0e638e13805f6b1c1931254870fac40e2510170c46c27242f42, 0x0);
  (0, 0x1f58974ea38629ed39369c77a0e0d77fe0b62c555d5caffbe777456d1f00de12, 0x0);
  (-1, 0x9c2da9f7e2986c4d4bdfe8e2c93e59465db055e2089c9e8ac813d0d0132a34fa, 0x9f090e45e4fe8994441563139c4a547cd4889e334770bbab680d6d1dda3f79f1);
  (0, 0x77ebef529fbd54087806839da2e57d142bf3d0afbb49d498d7c03e922a8da31a, 0x0);
  (0, 0xf691e8f4da0ac383fca73eb242abf320ab7ee07ed301c9ec5226f08d29a470f0, 0x0);
  (-1, 0x3dfd2f453793fb284793c32f0c1afeffc9038123d5c5347c967b1025a8891543, 0x4e8e4af9f0bf2fed995d7fde3f62e5676232244be8effbc6d3074501292bf6c);
  (0, 0xdeb0abf31106445067c522d0c34a12fcdb22bf62086cad83765ffdece1108c61, 0x0);
  (-1, 0x868e281117bb3911a3575d0c94a94a48dc8bfd5bc275e9b03f2309ad0dd69e0d, 0x389ae13e06dcc8564b8a97588e170781b90590690469bd80f9f62cf6babd4604)].

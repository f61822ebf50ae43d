-Q theories Verif
theories/Base.v
theories/Nom.v
theories/Hex.v
theories/FileSpec.v
theories/FileSpecFacts.v
theories/Keytab.v
theories/KeytabSpec.v
theories/KeytabProofs.v
theories/PropsKeytab.v
theories/Ccache.v
theories/CcacheSpec.v
theories/CcacheProofs.v
theories/PropsCcache.v
theories/Utf8.v
theories/Time.v
theories/Der.v
theories/DerSpec.v
theories/DerProofs.v
theories/DerUnique.v
theories/Asn1Types.v
theories/Asn1.v
theories/Rfc4120.v
theories/Asn1Proofs.v
theories/PropsAsn1.v
theories/PropsWire.v
theories/Constants.v
theories/PropsConstants.v
theories/Text.v
theories/TextSpec.v
theories/TextProofs.v
theories/Mappers.v
theories/MappersSpec.v
theories/DerBytes.v
theories/MappersProofs.v
theories/MappersProofs2.v
theories/MappersProofs3.v
theories/MappersProofs4.v
theories/PropsMappers.v
theories/Crypto.v
theories/CryptoSpec.v
theories/CryptoProofs.v
theories/NfoldProofs.v
theories/NfoldProofs2.v
theories/CryptoProofs2.v
theories/CryptoProofs3.v
theories/Prims.v
theories/CryptoVectors.v
theories/PropsCrypto.v
theories/Client.v
theories/ClientSpec.v
theories/ClientProofs.v
theories/ClientProofs2.v
theories/ClientErrors.v
theories/ClientProofs3.v
theories/ClientProofs4.v
theories/ClientProofs5.v
theories/PropsClient.v
theories/PropsNetwork.v
theories/Defaults.v
theories/PropsDefaults.v
theories/PropsReread.v
theories/PropsTamper.v
theories/PropsHints.v
theories/PropsSessions.v
theories/PropsAppend.v
theories/Compare.v
theories/PropsCompare.v
theories/PropsSecret.v
theories/ErrorText.v
theories/PropsErrorText.v
theories/RepoTestsAsn1.v
theories/RepoTestsFiles.v
theories/RepoTestsClient.v
theories/Concurrent.v
theories/ConcurrentProofs.v
theories/PropsConcurrent.v
theories/PropsTransport.v
theories/FileHistory.v
theories/PropsHistory.v
theories/KdcSpec.v
theories/KdcProofs.v
theories/KdcExample.v
theories/PropsKdc.v
theories/PropsWhole.v
theories/PropsWholeAs.v
theories/PropsRewrite.v
theories/PropsSize.v
theories/PropsForged.v
theories/PropsStore.v
theories/PropsReveal.v
theories/PropsPower.v
theories/PropsKdcAs.v
theories/PropsPreamble.v
theories/Threads.v
theories/PropsThreads.v
theories/PropsCrowd.v
theories/PropsDamage.v
theories/PropsReplay.v
theories/PropsCrossed.v
theories/PropsEach.v
theories/PropsAttack.v
theories/Programs.v
theories/PropsPrograms.v
theories/PropsCopies.v
theories/PropsAsk.v
theories/Datagrams.v
theories/PropsDatagrams.v
theories/Replacing.v
theories/PropsReplacing.v
theories/PropsDistinct.v
theories/PropsSizes.v
theories/Modes.v
theories/PropsModes.v
theories/Maintain.v
theories/PropsMaintain.v
theories/PropsForeign.v
theories/PropsRemoved.v
